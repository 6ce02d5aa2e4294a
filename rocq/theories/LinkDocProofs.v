(** The networks of a whole filing, in terms of the documents. *)
From Verif Require Import Base Regex QNameModel ErrBase ErrTable ErrModel CtxModel InlineModel NetModel NetSpec NetProofs NetLinkProofs NetCombineProofs NetProps
  LangModel DtsProofs LinkModel LinkSpec LinkProofs LinkLoopProofs LinkNetProofs.
Local Open Scope nat_scope.
Local Opaque insert create.

Lemma contains_dec p s : {part_of p s} + {~ part_of p s}.
Proof. destruct (contains p s) eqn:E; [left; apply contains_part, E|right; rewrite <- contains_part; congruence]. Qed.
Lemma link_kind_factories x t k : x_tag x = Some t -> (link_kind x k <-> In k (factories t)).
Proof.
  intros Et. unfold link_kind. transitivity (let has s := contains (u s) t = true in
    let p := has "presentationLink"%string in let c := has "calculationLink"%string in let d := has "definitionLink"%string in
    let l := has "labelLink"%string in let r := has "referenceLink"%string in let f := has "footnoteLink"%string in
    match k with
    | KPresentation => p
    | KCalculation => c /\ ~ p
    | KPhysicalDefinition | KLogicalDefinition => d /\ ~ p /\ ~ c
    | KLabel => l /\ ~ p /\ ~ c /\ ~ d
    | KReference => r /\ ~ p /\ ~ c /\ ~ d /\ ~ l
    | KFootnote => f /\ ~ p /\ ~ c /\ ~ d /\ ~ l /\ ~ r
    end).
  - split.
    + intros (t' & Et' & H). assert (t' = t) as -> by congruence. cbv zeta in *. destruct k; rewrite ?contains_part; exact H.
    + intros H. exists t. split; [exact Et|]. cbv zeta in *. destruct k; rewrite ?contains_part in H; exact H.
  - cbv zeta. unfold factories. generalize (contains (u "presentationLink") t), (contains (u "calculationLink") t), (contains (u "definitionLink") t),
      (contains (u "labelLink") t), (contains (u "referenceLink") t), (contains (u "footnoteLink") t). intros p c d l r f.
    destruct p; [destruct k; cbn; intuition congruence|]. destruct c; [destruct k; cbn; intuition congruence|]. destruct d; [destruct k; cbn; intuition congruence|].
    destruct l; [destruct k; cbn; intuition congruence|]. destruct r; [destruct k; cbn; intuition congruence|]. destruct f; destruct k; cbn; intuition congruence.
Qed.

Section Doc.
Variable element_str : xml -> str.
Variable number : str -> Q.
Variable find_id : str -> option found.

Section Run.
Variable r : run.
Hypothesis Hok : run_ok element_str number find_id r.
Hypothesis Hlink : usual (r_link r).
Hypothesis Hinside : forall x around, inside (r_link r) (r_out r) x around -> usual x.
Hypothesis Hlogical : is_physical (r_kind r) = false.

Lemma logical_accepts k t : is_physical k = false -> accepts k t = None -> is_element t = true.
Proof. destruct k; try discriminate; intros _; destruct t; cbn; congruence. Qed.

(** A node of the run is a locator of a report element. *)
Lemma run_node n x : nth_error (r_heap r) n = Some x -> exists l loc al, made_for (r_heap r) (map loc_of (r_entries r)) n x l /\
  element_of (r_link r) (r_out r) "locator" loc al /\ locates find_id loc (o_key (n_obj x)) /\ xl "label" loc = Some (NetModel.l_label l).
Proof.
  intros Hx. destruct Hok as (es & es1 & es2 & eo & ro & dups & Heo & Hro & Ha & He & Hp).
  destruct (link_obj _ _ _ _ _ _ _ _ _ _ Hp Hx) as (l & Hm & Ho). exists l. pose proof (proj2 Hm) as Hl. rewrite nth_error_map in Hl.
  destruct (nth_error (r_entries r) (n_loc x)) as [[lab o]|] eqn:Een; [|discriminate]. injection Hl as <-.
  destruct (entry_part element_str find_id _ _ _ _ _ He _ _ _ Een) as (loc & al & Pn). exists loc, al. split; [exact Hm|].
  destruct (part_entry element_str find_id _ _ Hlink Hinside _ _ _ He _ _ _ Pn) as (lab' & o' & _ & _ & E' & Hlab & _). rewrite Een in E'. injection E' as <- <-.
  cbn [loc_of l_obj snd] in Ho. destruct o as [[ob rs]|]; [|discriminate]. cbn in Ho. injection Ho as Ho.
  assert (Hel : element_of (r_link r) (r_out r) "locator" loc al /\ locates find_id loc (o_key (n_obj x))).
  { apply (entry_element element_str find_id _ _ Hlink Hinside _ _ _ He (n_loc x) loc al lab (Some (ob, rs)) _ Pn Een).
    exists ob, rs. split; [reflexivity|]. split; [|congruence]. apply (logical_accepts (r_kind r)); [exact Hlogical|].
    apply parse_link_inv in Hp as (Hacc & _). apply (Hacc (loc_of (lab, Some (ob, rs))) ob); [|reflexivity].
    apply in_map. eapply nth_error_In, Een. }
  destruct Hel as [A B]. split; [exact A|]. split; [exact B|exact Hlab].
Qed.
(** A locator of a report element has its node. *)
Lemma run_has_node loc al e : element_of (r_link r) (r_out r) "locator" loc al -> locates find_id loc e ->
  exists n x l, made_for (r_heap r) (map loc_of (r_entries r)) n x l /\ o_key (n_obj x) = e /\ xl "label" loc = Some (NetModel.l_label l).
Proof.
  intros Hel Hloc. destruct Hok as (es & es1 & es2 & eo & ro & dups & Heo & Hro & Ha & He & Hp).
  destruct (in_part _ _ Hlink "locator" loc al (or_introl eq_refl) Hel) as (j & Pj).
  destruct (part_entry element_str find_id _ _ Hlink Hinside _ _ _ He _ _ _ Pj) as (lab & o & _ & _ & Ej & Hlab & _).
  destruct (proj2 (entry_element element_str find_id _ _ Hlink Hinside _ _ _ He j loc al lab o e Pj Ej) (conj Hel Hloc)) as (ob & rs & -> & _ & Hkey).
  destruct (C19_nodes_logical _ _ _ _ _ _ _ _ Hp Hlogical) as [G _].
  destruct (G j (loc_of (lab, Some (ob, rs))) ob) as (n & x & Hm & _ & Hob & _); [rewrite nth_error_map, Ej; reflexivity|reflexivity|].
  exists n, x, (loc_of (lab, Some (ob, rs))). split; [exact Hm|]. split; [congruence|exact Hlab].
Qed.

Lemma run_relates net o o' : In net (r_nets r) -> relates (r_heap r) net o o' -> puts find_id (r_link r) (r_out r) o o'.
Proof.
  intros _ (a & n & m & _ & _ & Hm & E & E'). unfold object in E, E'. destruct (nth_error (r_heap r) n) as [x|] eqn:Ex; [|discriminate].
  destruct (nth_error (r_heap r) m) as [y|] eqn:Ey; [|discriminate]. injection E as <-. injection E' as <-.
  destruct (run_node n x Ex) as (l & loc & al & Mx & Hel & Hloc & Hlab). destruct (run_node m y Ey) as (l' & loc' & al' & My & Hel' & Hloc' & Hlab').
  destruct Hok as (es & es1 & es2 & eo & ro & dups & Heo & Hro & Ha & He & Hp).
  unfold get_children in Hm. rewrite Ex in Hm. apply (C19_logical_child_iff_arc _ _ _ _ _ _ _ _ _ _ _ _ _ _ Hp Heo Hlogical Mx My) in Hm as (role & arc & Hin & F & T & _).
  destruct (arc_element number _ _ Hlink Hinside _ _ _ Ha arc Hin) as (xa & aa & Hela & Fa & Ta & _).
  exists xa, aa, loc, al, loc', al'. repeat (split; [assumption|]). split; [congruence|]. split; [congruence|]. auto.
Qed.
Lemma run_shows net o : In net (r_nets r) -> shows (r_heap r) net o -> mentions find_id (r_link r) (r_out r) o.
Proof.
  intros _ (a & n & _ & _ & E). unfold object in E. destruct (nth_error (r_heap r) n) as [x|] eqn:Ex; [|discriminate]. injection E as <-.
  destruct (run_node n x Ex) as (l & loc & al & _ & A & B & _). exists loc, al. auto.
Qed.

(** The nodes one gets to from the roots are those of the labels that one comes to. *)
Lemma run_comes n x l : made_for (r_heap r) (map loc_of (r_entries r)) n x l ->
  ((exists net a, In net (r_nets r) /\ In a net /\ reach (r_heap r) a n) <-> come_to find_id (r_link r) (r_out r) (NetModel.l_label l)).
Proof.
  intros Hm. destruct Hok as (es & es1 & es2 & eo & ro & dups & Heo & Hro & Ha & He & Hp).
  assert (Hnames : forall n x l, made_for (r_heap r) (map loc_of (r_entries r)) n x l -> names find_id (r_link r) (r_out r) (NetModel.l_label l)).
  { intros n0 x0 l0 M. destruct (run_node n0 x0 (proj1 M)) as (l1 & loc & al & M1 & A & B & C). assert (l1 = l0) as -> by (destruct M, M1; congruence).
    exists loc, al, (o_key (n_obj x0)). auto. }
  split.
  - intros (net & a & Hnet & Han & Hr). revert x l Hm. induction Hr as [|j k _ IH Hk]; intros x l Hm.
    + apply come_first; [eapply Hnames, Hm|]. intros xa aa Hela Hto.
      destruct (element_arc number _ _ Hlink Hinside _ _ _ Ha xa aa Hela) as (arc & Hin & Fa & Ta & _).
      apply (proj1 (C21_roots _ _ _ _ _ _ _ _ _ _ _ Hp Hro Hm) (ex_intro _ net (conj Hnet Han)) arc); [|congruence].
      unfold relevant. rewrite Hlogical. exact Hin.
    + unfold get_children in Hk. destruct (nth_error (r_heap r) j) as [y|] eqn:Ey; [|destruct Hk].
      destruct (run_node j y Ey) as (l' & _ & _ & My & _).
      apply (C19_logical_child_iff_arc _ _ _ _ _ _ _ _ _ _ _ _ _ _ Hp Heo Hlogical My Hm) in Hk as (role & arc & Hin & F & T & _).
      destruct (arc_element number _ _ Hlink Hinside _ _ _ Ha arc Hin) as (xa & aa & Hela & Fa & Ta & _).
      eapply come_next; [exact (IH y l' My)|exact Hela|congruence|congruence|eapply Hnames, Hm].
  - intros Hc. remember (NetModel.l_label l) as s eqn:Es. revert n x l Hm Es. induction Hc as [s _ Hno|s t xa aa Hs IH Hela F T _]; intros n x l Hm Es.
    + destruct (proj2 (C21_roots _ _ _ _ _ _ _ _ _ _ _ Hp Hro Hm)) as (net & A & B); [|exists net, n; split; [exact A|split; [exact B|constructor]]].
      unfold relevant. rewrite Hlogical. intros arc Hin Hto. destruct (arc_element number _ _ Hlink Hinside _ _ _ Ha arc Hin) as (xa & aa & Hela & Fa & Ta & _).
      apply (Hno xa aa Hela). congruence.
    + assert (Hn : names find_id (r_link r) (r_out r) s) by (destruct Hs; assumption). destruct Hn as (loc & al & e & Hel & Hloc & Hlab).
      destruct (run_has_node loc al e Hel Hloc) as (m & y & l' & My & _ & Hl'). assert (E' : s = NetModel.l_label l') by congruence.
      destruct (IH m y l' My E') as (net & a & A & B & C). exists net, a. split; [exact A|]. split; [exact B|]. eapply reach_step; [exact C|].
      unfold get_children. rewrite (proj1 My). destruct (element_arc number _ _ Hlink Hinside _ _ _ Ha xa aa Hela) as (arc & Hin & Fa & Ta & Ra).
      apply (C19_logical_child_iff_arc _ _ _ _ _ _ _ _ _ _ _ _ _ _ Hp Heo Hlogical My Hm). exists (a_role arc), arc. repeat split; [exact Hin|congruence|congruence].
Qed.
Lemma run_relates_iff o o' : (exists net, In net (r_nets r) /\ relates (r_heap r) net o o') <-> puts_there find_id (r_link r) (r_out r) o o'.
Proof.
  split.
  - intros (net & Hnet & a & n & m & Han & Hr & Hm & E & E'). unfold object in E, E'. destruct (nth_error (r_heap r) n) as [x|] eqn:Ex; [|discriminate].
    destruct (nth_error (r_heap r) m) as [y|] eqn:Ey; [|discriminate]. injection E as <-. injection E' as <-.
    destruct (run_node n x Ex) as (l & loc & al & Mx & Hel & Hloc & Hlab). destruct (run_node m y Ey) as (l' & loc' & al' & My & Hel' & Hloc' & Hlab').
    pose proof (proj1 (run_comes n x l Mx) (ex_intro _ net (ex_intro _ a (conj Hnet (conj Han Hr))))) as Hcome.
    destruct Hok as (es & es1 & es2 & eo & ro & dups & Heo & Hro & Ha & He & Hp).
    unfold get_children in Hm. rewrite Ex in Hm. apply (C19_logical_child_iff_arc _ _ _ _ _ _ _ _ _ _ _ _ _ _ Hp Heo Hlogical Mx My) in Hm as (role & arc & Hin & F & T & _).
    destruct (arc_element number _ _ Hlink Hinside _ _ _ Ha arc Hin) as (xa & aa & Hela & Fa & Ta & _).
    exists xa, aa, loc, al, loc', al', (NetModel.l_label l). repeat (split; [assumption|]). split; [congruence|]. split; [congruence|]. split; [congruence|]. auto.
  - intros (xa & aa & loc & al & loc' & al' & s & Hela & Hel & Hel' & F & L & T & Hloc & Hloc' & Hcome).
    destruct (run_has_node loc al o Hel Hloc) as (n & x & l & Mx & Hk & Hl). destruct (run_has_node loc' al' o' Hel' Hloc') as (m & y & l' & My & Hk' & Hl').
    assert (s = NetModel.l_label l) as -> by congruence. destruct (proj2 (run_comes n x l Mx) Hcome) as (net & a & Hnet & Han & Hr).
    exists net. split; [exact Hnet|]. exists a, n, m. split; [exact Han|]. split; [exact Hr|].
    unfold get_children, object. rewrite (proj1 Mx), (proj1 My). split; [|cbn; split; congruence].
    destruct Hok as (es & es1 & es2 & eo & ro & dups & Heo & Hro & Ha & He & Hp).
    destruct (element_arc number _ _ Hlink Hinside _ _ _ Ha xa aa Hela) as (arc & Hin & Fa & Ta & Ra).
    apply (C19_logical_child_iff_arc _ _ _ _ _ _ _ _ _ _ _ _ _ _ Hp Heo Hlogical Mx My). exists (a_role arc), arc. repeat split; [exact Hin|congruence|congruence].
Qed.
Lemma run_shows_iff o : (exists net, In net (r_nets r) /\ shows (r_heap r) net o) <-> mentions_there find_id (r_link r) (r_out r) o.
Proof.
  split.
  - intros (net & Hnet & a & n & Han & Hr & E). unfold object in E. destruct (nth_error (r_heap r) n) as [x|] eqn:Ex; [|discriminate]. injection E as <-.
    destruct (run_node n x Ex) as (l & loc & al & Mx & Hel & Hloc & Hlab). exists loc, al, (NetModel.l_label l). repeat (split; [assumption|]).
    apply (run_comes n x l Mx). eauto.
  - intros (loc & al & s & Hel & Hloc & Hlab & Hcome). destruct (run_has_node loc al o Hel Hloc) as (n & x & l & Mx & Hk & Hl).
    assert (s = NetModel.l_label l) as -> by congruence. destruct (proj2 (run_comes n x l Mx) Hcome) as (net & a & Hnet & Han & Hr).
    exists net. split; [exact Hnet|]. exists a, n. split; [exact Han|]. split; [exact Hr|]. unfold object. rewrite (proj1 Mx). cbn. congruence.
Qed.

Hypothesis Hcycle : no_cycle (r_link r) (r_out r).
Hypothesis Hanchor : anchored find_id (r_link r) (r_out r).

Lemma run_reaches n x : nth_error (r_heap r) n = Some x -> exists net a, In net (r_nets r) /\ In a net /\ reach (r_heap r) a n.
Proof.
  intros Hx. destruct Hok as (es & es1 & es2 & eo & ro & dups & Heo & Hro & Ha & He & Hp).
  apply (C21_all_reachable _ _ _ _ _ _ _ _ _ _ Hp Heo Hro Hx).
  - unfold relevant. rewrite Hlogical. intros s Hs. apply (Hcycle s). revert Hs. generalize s at 2 4. intros t Hs.
    induction Hs as [arc Hin Hf|t arc _ IH Hin Hf].
    + destruct (arc_element number _ _ Hlink Hinside _ _ _ Ha arc Hin) as (xa & aa & Hela & Fa & Ta & _). eapply chain_one; [exact Hela|congruence|exact Ta].
    + destruct (arc_element number _ _ Hlink Hinside _ _ _ Ha arc Hin) as (xa & aa & Hela & Fa & Ta & _). eapply chain_more; [exact IH|exact Hela|congruence|exact Ta].
  - unfold relevant. rewrite Hlogical. intros arc Hin. destruct (arc_element number _ _ Hlink Hinside _ _ _ Ha arc Hin) as (xa & aa & Hela & Fa & Ta & _).
    destruct (Hanchor xa aa Hela) as (loc & al & e & Hel & Hloc & Hlab). destruct (run_has_node loc al e Hel Hloc) as (m & y & l & My & Hk & Hl).
    destruct (link_obj _ _ _ _ _ _ _ _ _ _ Hp (proj1 My)) as (l' & My' & Ho). assert (l' = l) as -> by (destruct My, My'; congruence).
    exists l, (n_obj y). split; [eapply nth_error_In, My|]. split; [congruence|exact Ho].
Qed.
Lemma puts_run o o' : puts find_id (r_link r) (r_out r) o o' -> exists net, In net (r_nets r) /\ relates (r_heap r) net o o'.
Proof.
  intros (xa & aa & loc & al & loc' & al' & Hela & Hel & Hel' & F & T & Hloc & Hloc').
  destruct (run_has_node loc al o Hel Hloc) as (n & x & l & Mx & Hk & Hl). destruct (run_has_node loc' al' o' Hel' Hloc') as (m & y & l' & My & Hk' & Hl').
  destruct (run_reaches n x (proj1 Mx)) as (net & a & Hnet & Han & Hr). exists net. split; [exact Hnet|]. exists a, n, m. split; [exact Han|]. split; [exact Hr|].
  unfold get_children, object. rewrite (proj1 Mx), (proj1 My). split; [|cbn; split; congruence].
  destruct Hok as (es & es1 & es2 & eo & ro & dups & Heo & Hro & Ha & He & Hp).
  destruct (element_arc number _ _ Hlink Hinside _ _ _ Ha xa aa Hela) as (arc & Hin & Fa & Ta & Ra).
  apply (C19_logical_child_iff_arc _ _ _ _ _ _ _ _ _ _ _ _ _ _ Hp Heo Hlogical Mx My). exists (a_role arc), arc. repeat split; [exact Hin|congruence|congruence].
Qed.
Lemma mentions_run o : mentions find_id (r_link r) (r_out r) o -> exists net, In net (r_nets r) /\ shows (r_heap r) net o.
Proof.
  intros (loc & al & Hel & Hloc). destruct (run_has_node loc al o Hel Hloc) as (n & x & l & Mx & Hk & Hl).
  destruct (run_reaches n x (proj1 Mx)) as (net & a & Hnet & Han & Hr). exists net. split; [exact Hnet|]. exists a, n. split; [exact Han|]. split; [exact Hr|].
  unfold object. rewrite (proj1 Mx). cbn. congruence.
Qed.
End Run.

(** ** The whole filing *)

Variable edge_order : nat -> list edge -> list edge.
Variable root_order : nat -> list nat -> list nat.
Hypothesis Horders : orders edge_order root_order.
Variable fuel : nat.
Variable shuffle : list nat -> list nat.
Hypothesis Hshuffle : some_order shuffle.
Variable docs : list xml.
Hypothesis Husual : all_usual docs.
Variable es : repo xml.
Variable ws : list net.
Variable st : lstate.
Hypothesis Hparse : parse_networks element_str number find_id edge_order root_order fuel shuffle docs es = Ok (ws, st).

Lemma link_usual link outside : extended_link docs link outside -> usual link /\ forall x around, inside link outside x around -> usual x.
Proof.
  apply Husual.
Qed.

Lemma filing_runs : exists rs d, (forall r, In r rs -> run_ok element_str number find_id r) /\ based 0 rs /\ NoDup (dict_keys d) /\
  (forall R, nets_in d R = flat_map nets_of (filter (fun r => str_eqb (r_role r) R) rs)) /\
  combine_roles fuel shuffle d (heap_of rs) = Ok (ws, ls_heap st) /\ map r_key rs = flat_map expected (sorted_links docs) /\
  forall link outside R k, (exists r, In r rs /\ r_key r = (link, outside, R, k)) <-> extended_link docs link outside /\ xl "role" link = Some R /\ link_kind link k.
Proof.
  unfold parse_networks in Hparse. apply bind_ok in Hparse as ([d st1] & Hl & H). cbn [fst snd] in H. apply bind_ok in H as ([ws' h'] & Hc & H). cbn [fst snd] in H. injection H as <- <-.
  cbn [ls_heap]. destruct (links_loop_runs element_str number find_id edge_order root_order Horders (sorted_links docs) [] (LState es [] [] 0) d st1) as (rs & K & O & B & E & N & G).
  - intros [link outside] Hp. apply in_sorted_links, in_all_links in Hp. apply (link_usual link outside Hp).
  - exact Hl.
  - constructor.
  - exists rs, d. cbn in B, E. split; [exact O|]. split; [exact B|]. split; [exact N|]. split; [exact G|]. split; [rewrite <- E; exact Hc|]. split; [exact K|].
    intros link outside R k. split.
    + intros (r & Hr & Ek). apply (in_map r_key) in Hr. rewrite K, Ek in Hr. apply in_flat_map in Hr as ([link' out'] & Hp & Hr). unfold expected in Hr. cbn [fst snd] in Hr.
      destruct (xl "role" link') as [R'|] eqn:ER; [|destruct Hr]. destruct (x_tag link') as [t|] eqn:Et; [|destruct Hr]. apply in_map_iff in Hr as (k' & E' & Hk).
      injection E' as -> -> -> ->. apply in_sorted_links, in_all_links in Hp. split; [exact Hp|]. split; [exact ER|]. apply (link_kind_factories link t k Et), Hk.
    + intros (Hx & HR & Hk). assert (Hin : In (link, outside, R, k) (map r_key rs)).
      { rewrite K. apply in_flat_map. exists (link, outside). split; [apply in_sorted_links, in_all_links, Hx|]. unfold expected. cbn [fst snd]. rewrite HR.
        destruct Hk as (t & Et & Hk). rewrite Et. apply (in_map (fun k => (link, outside, R, k))), (link_kind_factories link t k Et). exists t. auto. }
      apply in_map_iff in Hin as (r & E' & Hr). eauto.
Qed.

Lemma filing_once : NoDup (map (fun w => (w_kind w, w_role w)) (filter logical ws)).
Proof. destruct filing_runs as (rs & d & O & B & N & G & C & _). eapply combined_once; eassumption. Qed.

Lemma filing_relates R k o o' : is_physical k = false ->
  (exists w, In w ws /\ w_kind w = k /\ w_role w = R /\ relates (ls_heap st) (w_roots w) o o') ->
  exists link outside, extended_link docs link outside /\ xl "role" link = Some R /\ link_kind link k /\ puts find_id link outside o o'.
Proof.
  intros Hk H. destruct filing_runs as (rs & d & O & B & N & G & C & _ & K).
  destruct (proj1 (combined_relates element_str number find_id rs B O fuel shuffle Hshuffle d N G ws (ls_heap st) C R k o o' Hk) H) as (r & net & Hr & ER & EK & Hnet & Hrel).
  destruct (proj1 (K (r_link r) (r_out r) R k)) as (A1 & A2 & A3); [exists r; split; [exact Hr|unfold r_key; congruence]|]. destruct (link_usual _ _ A1) as [U1 U2].
  exists (r_link r), (r_out r). repeat (split; [assumption|]). eapply run_relates; eauto. congruence.
Qed.
Lemma filing_relates_iff R k o o' : is_physical k = false ->
  ((exists w, In w ws /\ w_kind w = k /\ w_role w = R /\ relates (ls_heap st) (w_roots w) o o') <->
   exists link outside, extended_link docs link outside /\ xl "role" link = Some R /\ link_kind link k /\ puts_there find_id link outside o o').
Proof.
  intros Hk. destruct filing_runs as (rs & d & O & B & N & G & C & _ & K).
  rewrite (combined_relates element_str number find_id rs B O fuel shuffle Hshuffle d N G ws (ls_heap st) C R k o o' Hk). split.
  - intros (r & net & Hr & ER & EK & Hnet & Hrel).
    destruct (proj1 (K (r_link r) (r_out r) R k)) as (A1 & A2 & A3); [exists r; split; [exact Hr|unfold r_key; congruence]|]. destruct (link_usual _ _ A1) as [U1 U2].
    exists (r_link r), (r_out r). repeat (split; [assumption|]). apply (run_relates_iff r (O r Hr) U1 U2); [congruence|]. eauto.
  - intros (link & outside & Hx & HR & Hlk & Hp). destruct (proj2 (K link outside R k) (conj Hx (conj HR Hlk))) as (r & Hr & E). unfold r_key in E. injection E as <- <- <- <-.
    destruct (link_usual _ _ Hx) as [U1 U2]. destruct (proj2 (run_relates_iff r (O r Hr) U1 U2 Hk o o') Hp) as (net & Hnet & Hrel). eauto 8.
Qed.
Lemma filing_shows_iff R k o : is_physical k = false ->
  ((exists w, In w ws /\ w_kind w = k /\ w_role w = R /\ shows (ls_heap st) (w_roots w) o) <->
   exists link outside, extended_link docs link outside /\ xl "role" link = Some R /\ link_kind link k /\ mentions_there find_id link outside o).
Proof.
  intros Hk. destruct filing_runs as (rs & d & O & B & N & G & C & _ & K).
  rewrite (combined_shows element_str number find_id rs B O fuel shuffle Hshuffle d N G ws (ls_heap st) C R k o Hk). split.
  - intros (r & net & Hr & ER & EK & Hnet & Hrel).
    destruct (proj1 (K (r_link r) (r_out r) R k)) as (A1 & A2 & A3); [exists r; split; [exact Hr|unfold r_key; congruence]|]. destruct (link_usual _ _ A1) as [U1 U2].
    exists (r_link r), (r_out r). repeat (split; [assumption|]). apply (run_shows_iff r (O r Hr) U1 U2); [congruence|]. eauto.
  - intros (link & outside & Hx & HR & Hlk & Hp). destruct (proj2 (K link outside R k) (conj Hx (conj HR Hlk))) as (r & Hr & E). unfold r_key in E. injection E as <- <- <- <-.
    destruct (link_usual _ _ Hx) as [U1 U2]. destruct (proj2 (run_shows_iff r (O r Hr) U1 U2 Hk o) Hp) as (net & Hnet & Hrel). eauto 8.
Qed.
Lemma relates_filing R k o o' link outside : is_physical k = false -> extended_link docs link outside -> xl "role" link = Some R -> link_kind link k ->
  no_cycle link outside -> anchored find_id link outside -> puts find_id link outside o o' ->
  exists w, In w ws /\ w_kind w = k /\ w_role w = R /\ relates (ls_heap st) (w_roots w) o o'.
Proof.
  intros Hk Hx HR Hlk Hc Ha Hp. destruct filing_runs as (rs & d & O & B & N & G & C & _ & K).
  destruct (proj2 (K link outside R k) (conj Hx (conj HR Hlk))) as (r & Hr & E). unfold r_key in E. injection E as <- <- <- <-. destruct (link_usual _ _ Hx) as [U1 U2].
  destruct (puts_run r (O r Hr) U1 U2 Hk Hc Ha o o' Hp) as (net & Hnet & Hrel).
  apply (combined_relates element_str number find_id rs B O fuel shuffle Hshuffle d N G ws (ls_heap st) C _ _ o o' Hk). eauto 8.
Qed.
Lemma filing_shows R k o : is_physical k = false ->
  (exists w, In w ws /\ w_kind w = k /\ w_role w = R /\ shows (ls_heap st) (w_roots w) o) ->
  exists link outside, extended_link docs link outside /\ xl "role" link = Some R /\ link_kind link k /\ mentions find_id link outside o.
Proof.
  intros Hk H. destruct filing_runs as (rs & d & O & B & N & G & C & _ & K).
  destruct (proj1 (combined_shows element_str number find_id rs B O fuel shuffle Hshuffle d N G ws (ls_heap st) C R k o Hk) H) as (r & net & Hr & ER & EK & Hnet & Hrel).
  destruct (proj1 (K (r_link r) (r_out r) R k)) as (A1 & A2 & A3); [exists r; split; [exact Hr|unfold r_key; congruence]|]. destruct (link_usual _ _ A1) as [U1 U2].
  exists (r_link r), (r_out r). repeat (split; [assumption|]). eapply run_shows; eauto. congruence.
Qed.
Lemma shows_filing R k o link outside : is_physical k = false -> extended_link docs link outside -> xl "role" link = Some R -> link_kind link k ->
  no_cycle link outside -> anchored find_id link outside -> mentions find_id link outside o ->
  exists w, In w ws /\ w_kind w = k /\ w_role w = R /\ shows (ls_heap st) (w_roots w) o.
Proof.
  intros Hk Hx HR Hlk Hc Ha Hp. destruct filing_runs as (rs & d & O & B & N & G & C & _ & K).
  destruct (proj2 (K link outside R k) (conj Hx (conj HR Hlk))) as (r & Hr & E). unfold r_key in E. injection E as <- <- <- <-. destruct (link_usual _ _ Hx) as [U1 U2].
  destruct (mentions_run r (O r Hr) U1 U2 Hk Hc Ha o Hp) as (net & Hnet & Hrel).
  apply (combined_shows element_str number find_id rs B O fuel shuffle Hshuffle d N G ws (ls_heap st) C _ _ o Hk). eauto 8.
Qed.
End Doc.
