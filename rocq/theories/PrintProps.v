(** Theorems C85-C88: what printed networks, tables of facts and dictionaries of networks say. *)
From Coq Require Import QArith.
From Verif Require Import Base QNameModel CtxModel CtxSpec CtxProofs PrintModel PrintSpec PrintProofs PrintFactProofs.
Local Open Scope nat_scope.

(** ** C85: printed networks *)

(** The lines after the heading draw the trees below the roots. *)
Theorem C85_drawing f g lr ln roots lines : pprint_network f g lr ln roots = Ok lines ->
  exists heading ts, belows g roots ts /\
    lines = heading :: drawing (fun i => shown (g i)) (flat_map (entries 0) ts) ++ [[]].
Proof.
  unfold pprint_network. destruct (print_all _ roots) as [b|] eqn:E; [|discriminate]. intros X.
  destruct (print_all_draws g f [] (print_draws g f) _ _ E) as (ts & Hts & D).
  specialize (D 0 [] eq_refl I). rewrite !app_nil_r in D.
  exists (u "Network (link role: " ++ lr ++ u "), link name: " ++ prefix_local_notation ln), ts. split; [exact Hts|].
  change (fun i => shown (g i)) with (text_in g). rewrite D. cbn [bind] in X. symmetry. injection X as X. exact X.
Qed.

(** Printing one node. *)
Theorem C85_node f g i lines : pprint_network_node f g (Some i) = Ok lines ->
  exists t, below g i t /\ lines = drawing (fun i => shown (g i)) (entries 0 t).
Proof.
  cbn. intros E. destruct (print_draws g f _ _ _ _ E) as (t & Ht & D).
  exists t. split; [exact Ht|]. specialize (D 0 [] eq_refl I eq_refl). rewrite !app_nil_r in D. symmetry. exact D.
Qed.

(** It ends if and only if no node is below itself. *)
Theorem C85_ends g lr ln roots :
  (exists f lines, pprint_network f g lr ln roots = Ok lines) <-> (forall i, In i roots -> Acc (child g) i).
Proof. apply network_ends. Qed.

(** The tree below a node is unique. *)
Theorem C85_tree_unique g i t t' : below g i t -> below g i t' -> t = t'.
Proof.
  revert i t'. induction t as [j kids IH] using tree_ind'. intros i t' H H'.
  inversion H as [? ? Hk]; subst. inversion H' as [? ts' Hk']; subst. f_equal.
  clear H H'. revert ts' Hk'. revert Hk. generalize (pn_kids (g j)).
  induction IH as [|t kids Ht _ IHk]; intros l Hk ts' Hk'; inversion Hk; subst; inversion Hk'; subst; [reflexivity|].
  f_equal; [eapply Ht; eauto|eapply IHk; eauto].
Qed.

(** A reader finds the depth and the text of every line, and two networks that print the same lines have the same trees
    of texts. *)
Theorem C85_read text ts :
  map read_line (drawing text (flat_map (entries 0) ts)) =
  map (fun e => Some (fst e, text (snd e))) (flat_map (entries 0) ts).
Proof. apply read_drawing. Qed.

Theorem C85_determines f f' g g' lr lr' ln ln' roots roots' lines :
  pprint_network f g lr ln roots = Ok lines -> pprint_network f' g' lr' ln' roots' = Ok lines ->
  exists ts ts', belows g roots ts /\ belows g' roots' ts' /\
    map (texts (fun i => shown (g i))) ts = map (texts (fun i => shown (g' i))) ts'.
Proof.
  intros H H'. apply C85_drawing in H. apply C85_drawing in H'.
  destruct H as (h & ts & Hts & E), H' as (h' & ts' & Hts' & E'). exists ts, ts'. split; [exact Hts|split; [exact Hts'|]].
  apply drawing_determines. rewrite E in E'. injection E' as _ E'. apply app_inv_tail in E'. exact E'.
Qed.

(** The same holds for what is on the console if no text has a line break. *)
Theorem C85_console f f' g g' i i' lines lines' :
  pprint_network_node f g (Some i) = Ok lines -> pprint_network_node f' g' (Some i') = Ok lines' ->
  (forall j, ~ In 10%N (shown (g j))) -> (forall j, ~ In 10%N (shown (g' j))) ->
  stdout lines = stdout lines' ->
  exists t t', below g i t /\ below g' i' t' /\ texts (fun i => shown (g i)) t = texts (fun i => shown (g' i)) t'.
Proof.
  intros H H' N N' E. apply C85_node in H. apply C85_node in H'.
  destruct H as (t & Ht & ->), H' as (t' & Ht' & ->). exists t, t'. split; [exact Ht|split; [exact Ht'|]].
  apply stdout_inj in E; [|apply drawing_newline; intros e _; apply N|apply drawing_newline; intros e _; apply N'].
  pose proof (drawing_determines (fun i => shown (g i)) (fun i => shown (g' i)) [t] [t']) as D. cbn [flat_map map] in D.
  rewrite !app_nil_r in D. specialize (D E). injection D as D. exact D.
Qed.

(** Sample networks. *)
Definition q_arc : qname := QName (u "uri") (u "link") (u "presentationArc").
Definition q_link : qname := QName (u "uri") (u "link") (u "presentationLink").
Definition sample_node (t : target) (w : option str) (kids : list nat) : pnode :=
  PNode t w None 1 (u "parent-child") q_arc (u "role") q_link kids.
Definition sample_el (n : string) (kids : list nat) : pnode := sample_node (TElement KConcept (u n)) None kids.
Definition sample_net (l : list pnode) : net := fun i => nth i l (sample_el "none" []).

Definition tree_net : net := sample_net [sample_el "a" [1; 3]; sample_el "b" [2]; sample_el "c" []; sample_el "d" [2]].

Example C85_drawing_case :
  pprint_network 5 tree_net (u "role") q_link [0; 3] = Ok
    [u "Network (link role: role), link name: link:presentationLink";
     u "├──[CONCEPT] a"; u "│  ├──[CONCEPT] b"; u "│  │  └──[CONCEPT] c"; u "│  └──[CONCEPT] d"; u "│     └──[CONCEPT] c";
     u "└──[CONCEPT] d"; u "   └──[CONCEPT] c"; []] /\
  belows tree_net [0; 3] [Item 0 [Item 1 [Item 2 []]; Item 3 [Item 2 []]]; Item 3 [Item 2 []]].
Proof. split; [vm_compute; reflexivity|repeat constructor]. Qed.

Example C85_read_case : read_line (u "│     └──[CONCEPT] c") = Some (2, u "[CONCEPT] c").
Proof. vm_compute. reflexivity. Qed.

Example C85_console_case : ~ In 10%N (shown (tree_net 0)) /\ exists lines, pprint_network_node 5 tree_net (Some 0) = Ok lines.
Proof. split; [vm_compute; intuition discriminate|vm_compute; eauto]. Qed.

(** A node below itself. *)
Example C85_ends_case : forall f, pprint_network f (sample_net [sample_el "a" [0]]) (u "role") q_link [0] = Raise OutOfFuel.
Proof.
  intros f. unfold pprint_network. cbn [print_all].
  enough (H : forall b h, print_sub_network f (sample_net [sample_el "a" [0]]) b h 0 = Raise OutOfFuel) by (rewrite H; reflexivity).
  induction f as [|f IH]; intros b h; [reflexivity|]. rewrite print_S. change (pn_kids _) with [0]. cbn [print_all].
  rewrite IH. reflexivity.
Qed.

(** With a line break in a text what is on the console is ambiguous. *)
Definition broken_net : net := sample_net [sample_node (TLabel (u "r/label") (u "en") (u "x
   └──[CONCEPT] c")) None []].
Definition unbroken_net : net := sample_net [sample_node (TLabel (u "r/label") (u "en") (u "x")) None [1]; sample_el "c" []].
Theorem C85_console_refuted :
  exists g g' i lines lines', pprint_network_node 5 g (Some i) = Ok lines /\ pprint_network_node 5 g' (Some i) = Ok lines' /\
    stdout lines = stdout lines' /\ pn_kids (g i) = [] /\ pn_kids (g' i) <> [].
Proof.
  exists broken_net, unbroken_net, 0.
  eexists; eexists. split; [reflexivity|split; [reflexivity|]]. split; [vm_compute; reflexivity|]. split; [reflexivity|discriminate].
Qed.

(** ** C86: the text of a node *)

(** For nodes that point to report elements the text says the weight, the class and the name of the element. *)
Theorem C86_element_partial n n' k name k' name' :
  pn_target n = TElement k name -> pn_target n' = TElement k' name' ->
  (forall w, pn_weight n = Some w -> ~ In (ch " ") w /\ ~ In (ch "]") w) ->
  (forall w, pn_weight n' = Some w -> ~ In (ch " ") w /\ ~ In (ch "]") w) ->
  (shown n = shown n' <-> pn_weight n = pn_weight n' /\ k = k' /\ name = name').
Proof.
  intros T T' W W'. split; [apply shown_inj; assumption|].
  intros (Hw & -> & ->). unfold shown. rewrite Hw, T, T'. reflexivity.
Qed.

(** With weights of at most seven characters, what follows is aligned. *)
Theorem C86_aligned n n' w w' : pn_weight n = Some w -> pn_weight n' = Some w' -> length w <= 7 -> length w' <= 7 ->
  exists pre pre' rest rest', shown n = pre ++ rest /\ shown n' = pre' ++ rest' /\ length pre = length pre' /\
    rest = shown_target (pn_target n) /\ rest' = shown_target (pn_target n').
Proof.
  intros E E' L L'. destruct (shown_aligned n w E L) as (p & Lp & H). destruct (shown_aligned n' w' E' L') as (p' & Lp' & H').
  exists p, p', (shown_target (pn_target n)), (shown_target (pn_target n')). repeat split; auto. congruence.
Qed.

Example C86_case : shown (sample_node (TElement KAbstract (u "p:a")) (Some (u "-1.0")) []) = u "[W=-1.0]    [ABSTRACT] p:a" /\
  shown (sample_node (TElement KLineItems (u "p:a")) (Some (u "1.0")) []) = u "[W= 1.0]    [LINE ITEMS] p:a".
Proof. split; vm_compute; reflexivity. Qed.

(** All facts have the same text. *)
Theorem C86_fact_refuted : exists f f', f <> f' /\
  shown (sample_node (TFact f) None []) = shown (sample_node (TFact f') None []) /\ shown (sample_node (TFact f) None []) = [].
Proof. exists 0, 1. split; [discriminate|split; reflexivity]. Qed.

(** The preferred label of a node has no effect. *)
Theorem C86_preferred_refuted t w o ar an lr ln kids p p' :
  shown (PNode t w p o ar an lr ln kids) = shown (PNode t w p' o ar an lr ln kids).
Proof. reflexivity. Qed.

(** Labels with different roles may have the same text. *)
Theorem C86_role_refuted : exists r r', r <> r' /\
  shown (sample_node (TLabel r (u "en") (u "x")) None []) = shown (sample_node (TLabel r' (u "en") (u "x")) None []).
Proof. exists (u "a/label"), (u "b/label"). split; [vm_compute; discriminate|vm_compute; reflexivity]. Qed.

(** ** C87: tables of facts *)

(** The columns are exactly the aspects that facts have, in their order; every fact has one row, in the order of ids. *)
Theorem C87_table ord facts columns rows : (forall l, Permutation (ord l) l) ->
  pprint_facts ord facts = Ok (columns, rows) ->
  exists aspects sorted, columns = u "id" :: aspects ++ [u "value"] /\
    StronglySorted column_before aspects /\ (forall a, In a aspects <-> aspect_used facts a) /\
    in_id_order facts sorted /\ Forall2 (row_shows aspects) sorted rows.
Proof.
  intros Ho. unfold pprint_facts. destruct (distinct _); [|discriminate]. intros E.
  assert (Ec : columns = [u "id"] ++ dims ord facts ++ [u "value"]) by (unfold dims; congruence).
  assert (Er : rows = map snd (stable_sort row_leb (map (fact_row (dims ord facts)) facts))) by (unfold dims; congruence).
  clear E. exists (dims ord facts), (stable_sort by_id facts).
  split; [exact Ec|]. split; [apply dims_sorted; exact Ho|]. split; [intros a; apply dims_in; exact Ho|].
  split; [apply by_id_order|]. rewrite Er, facts_rows. 
  induction (stable_sort by_id facts) as [|f l IH]; cbn [map]; constructor; [apply fact_row_shows|exact IH].
Qed.

(** It fails if and only if an aspect is named like one of the two other columns. *)
Theorem C87_fails ord facts : (forall l, Permutation (ord l) l) ->
  (aspect_used facts (u "id") \/ aspect_used facts (u "value") -> pprint_facts ord facts = Raise ValueError) /\
  (~ aspect_used facts (u "id") -> ~ aspect_used facts (u "value") -> exists t, pprint_facts ord facts = Ok t).
Proof.
  intros Ho. unfold pprint_facts. fold (dims ord facts).
  assert (Hne : u "id" <> u "value") by (vm_compute; discriminate).
  pose proof (columns_distinct (u "id") (u "value") (dims ord facts) (dims_nodup ord facts Ho) Hne) as D.
  rewrite !(dims_in ord facts) in D by exact Ho. split.
  - intros H. destruct (distinct _); [|reflexivity]. destruct (proj1 D eq_refl) as [D1 D2]. exfalso. tauto.
  - intros H1 H2. rewrite (proj2 D (conj H1 H2)). eauto.
Qed.

(** The order in which the set of aspects is iterated has no effect. *)
Theorem C87_order ord ord' facts : (forall l, Permutation (ord l) l) -> (forall l, Permutation (ord' l) l) ->
  pprint_facts ord facts = pprint_facts ord' facts.
Proof.
  intros H H'. unfold pprint_facts. fold (dims ord facts). fold (dims ord' facts).
  assert (dims ord facts = dims ord' facts) as ->; [|reflexivity].
  apply (sorted_unique column_before before_asym); try (apply dims_sorted; assumption).
  intros a. rewrite !dims_in by assumption. reflexivity.
Qed.

(** The columns are determined by what is said about them. *)
Theorem C87_columns_unique l l' : StronglySorted column_before l -> StronglySorted column_before l' ->
  (forall a, In a l <-> In a l') -> l = l'.
Proof. apply sorted_unique. exact before_asym. Qed.

(** One fact: a row for every aspect, in the order of names, then the value. *)
Theorem C87_fact f : exists rows,
  pprint_fact f = rows ++ [(u "value", CText (Some (f_value f)))] /\
  Permutation (map fst rows) (c_aspects (f_context f)) /\
  StronglySorted (fun a b => a = b \/ lex_lt a b) (map fst rows) /\
  forall a c, In (a, c) rows -> c = CChar (get_characteristic (f_context f) a).
Proof.
  unfold pprint_fact. set (l := map _ (c_aspects _)).
  exists (stable_sort (fun r r' => str_leb (fst r) (fst r')) l). split; [reflexivity|]. split; [|split].
  - transitivity (map fst l).
    + apply Permutation_map. symmetry. apply stable_sort_perm.
    + unfold l. rewrite map_map. cbn. rewrite map_id. reflexivity.
  - assert (S := stable_sort_sorted (fun r r' : str * cell => str_leb (fst r) (fst r'))
      (fun x y => str_leb_total _ _) (fun x y z => str_leb_trans _ _ _) l).
    induction S as [|a m S IH F]; cbn; constructor; [exact IH|]. apply Forall_map. eapply Forall_impl; [|exact F].
    intros b Hb. destruct (str_eqb (fst a) (fst b)) eqn:E; [left; apply str_eqb_eq; exact E|].
    right. apply str_leb_lex; [exact Hb|]. intros X. rewrite X, str_eqb_refl in E. discriminate.
  - intros a c H. apply stable_sort_in in H. unfold l in H. apply in_map_iff in H. destruct H as (x & X & _). congruence.
Qed.

Definition sample_char (a : string) : str * characteristic :=
  (u a, ChConcept (Element (QName (u "uri") (u "p") (u "c")) None KConcept 0)).
Definition sample_fact (i : option str) (aspects : list string) (v : string) : fact :=
  Fact (Context (u "c") (map u aspects) (map sample_char aspects)) (u v) i.

Example C87_case : pprint_facts (@rev str) [sample_fact (Some (u "f2")) ["concept"; "p:b"; "period"]%string "1"; 
    sample_fact None ["concept"; "p:a"]%string "2"] =
  Ok (map u ["id"; "concept"; "period"; "p:a"; "p:b"; "value"]%string,
      [[CText None; CChar (Some (snd (sample_char ""))); CChar None; CChar (Some (snd (sample_char ""))); CChar None; CText (Some (u "2"))];
       [CText (Some (u "f2")); CChar (Some (snd (sample_char ""))); CChar (Some (snd (sample_char ""))); CChar None;
        CChar (Some (snd (sample_char ""))); CText (Some (u "1"))]]).
Proof. vm_compute. reflexivity. Qed.

Example C87_fails_case : pprint_facts (fun l => l) [sample_fact None ["concept"; "value"]%string "1"] = Raise ValueError.
Proof. vm_compute. reflexivity. Qed.

(** ** C88: dictionaries of networks *)

(** Dictionaries are equal if and only if the trees agree in the class of what the nodes point to, roles, names, orders
    and shape. *)
Theorem C88_dictionary_partial f f' g g' i i' j j' : node_dict f g i = Ok j -> node_dict f' g' i' = Ok j' ->
  (j = j' <-> alike g g' i i').
Proof. apply dict_alike. Qed.

Theorem C88_network f f' g g' lr lr' ln ln' p p' roots roots' j j' :
  network_dict f g lr ln p roots = Ok j -> network_dict f' g' lr' ln' p' roots' = Ok j' ->
  (j = j' <-> lr = lr' /\ prefix_local_notation ln = prefix_local_notation ln' /\ p = p' /\ alikes g g' roots roots').
Proof.
  unfold network_dict. intros E E'.
  destruct (map_res _ roots) as [l|] eqn:El; [|discriminate]. cbn [bind] in E.
  destruct (map_res _ roots') as [l'|] eqn:El'; [|discriminate]. cbn [bind] in E'.
  assert (K : l = l' <-> alikes g g' roots roots').
  { apply (dicts_alike g g' f f'); auto. intros; eapply dict_alike; eauto. }
  assert (Ej : j = JObj [(u "roots", JList l); (u "link_role", JStr lr);
            (u "link_name", JStr (prefix_local_notation ln)); (u "is_physical", JBool p)]) by congruence.
  assert (Ej' : j' = JObj [(u "roots", JList l'); (u "link_role", JStr lr');
            (u "link_name", JStr (prefix_local_notation ln')); (u "is_physical", JBool p')]) by congruence.
  clear E E'. subst j j'. split.
  - intros X. 
    pose proof (f_equal (part 0) X) as X0. pose proof (f_equal (part 1) X) as X1. pose proof (f_equal (part 2) X) as X2.
    pose proof (f_equal (part 3) X) as X3. clear X. cbn [part map nth snd] in *.
    split; [congruence|]. split; [congruence|]. split; [congruence|]. apply K. congruence.
  - intros (-> & -> & -> & H). apply K in H. rewrite H. reflexivity.
Qed.

(** Which report elements are in the network, and their weights, is not in its dictionary. *)
Theorem C88_elements_refuted : exists g g' j,
  network_dict 3 g (u "role") q_link true [0] = Ok j /\ network_dict 3 g' (u "role") q_link true [0] = Ok j /\
  pn_target (g 0) <> pn_target (g' 0) /\ pn_weight (g 1) <> pn_weight (g' 1).
Proof.
  exists (sample_net [sample_el "a" [1]; sample_node (TElement KConcept (u "c")) (Some (u "1.0")) []]),
    (sample_net [sample_el "b" [1]; sample_node (TElement KConcept (u "c")) (Some (u "-1.0")) []]).
  eexists. split; [reflexivity|]. split; [vm_compute; reflexivity|]. split; vm_compute; discriminate.
Qed.

Example C88_case : exists j, node_dict 3 tree_net 1 = Ok j /\ alike tree_net tree_net 1 3.
Proof.
  eexists. split; [reflexivity|]. repeat (constructor; try reflexivity; try exact I).
Qed.

(** A dictionary is made if and only if no node is below itself. *)
Theorem C88_ends g lr ln p roots :
  (exists f j, network_dict f g lr ln p roots = Ok j) <-> (forall i, In i roots -> Acc (child g) i).
Proof. apply network_dict_ends. Qed.

Print Assumptions C85_drawing.
Print Assumptions C85_node.
Print Assumptions C85_ends.
Print Assumptions C85_tree_unique.
Print Assumptions C85_read.
Print Assumptions C85_determines.
Print Assumptions C85_console.
Print Assumptions C85_console_refuted.
Print Assumptions C86_element_partial.
Print Assumptions C86_aligned.
Print Assumptions C86_fact_refuted.
Print Assumptions C86_preferred_refuted.
Print Assumptions C86_role_refuted.
Print Assumptions C87_table.
Print Assumptions C87_fails.
Print Assumptions C87_order.
Print Assumptions C87_columns_unique.
Print Assumptions C87_fact.
Print Assumptions C88_dictionary_partial.
Print Assumptions C88_network.
Print Assumptions C88_elements_refuted.
Print Assumptions C88_ends.
