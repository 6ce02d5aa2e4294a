(** C118: the arc roles of the nodes of the networks of a filing that was read are written on arcs of its documents. *)
From Coq Require Import QArith Permutation.
From Verif Require Import Base QNameModel QNameSpec ErrBase ErrTable ErrModel CtxModel CtxSpec.
From Verif Require CtxProps.
From Verif Require Import NetModel NetSpec NetProofs NetLinkProofs NetCombineProofs NetProps LangModel LinkModel LinkSpec LinkProofs LinkLoopProofs LinkNetProofs LinkDocProofs ArcRoleProps.
From Verif Require LinkProps FilingCalcProps.
From Verif Require Import FilingModel FilingSpec FilingProofs FilingStages FilingProps NodeAttrProps.
Local Open Scope nat_scope.
Local Opaque insert create.

(** ** Specification *)

(** An arc of the link with this arc role. *)
Definition on_some_arc (link : xml) (outside : list xml) (ar : str) : Prop :=
  exists arc aa, LinkSpec.element_of link outside "arc" arc aa /\ xl "arcrole" arc = Some ar.
(** The arc role that the link gives to a locator: that of an arc to it; if there is none, that of an arc
    from it; if there is none either, "unknown". *)
Inductive gives_role (link : xml) (outside : list xml) (loc : xml) : str -> Prop :=
| given_to arc aa ar : LinkSpec.element_of link outside "arc" arc aa -> xl "to" arc = xl "label" loc -> xl "arcrole" arc = Some ar -> gives_role link outside loc ar
| given_from arc aa ar : (forall arc' aa', LinkSpec.element_of link outside "arc" arc' aa' -> xl "to" arc' <> xl "label" loc) ->
    LinkSpec.element_of link outside "arc" arc aa -> xl "from" arc = xl "label" loc -> xl "arcrole" arc = Some ar -> gives_role link outside loc ar
| given_none : (forall arc' aa', LinkSpec.element_of link outside "arc" arc' aa' -> xl "to" arc' <> xl "label" loc /\ xl "from" arc' <> xl "label" loc) ->
    gives_role link outside loc (u "unknown").

Section Run.
Variable element_str : xml -> str.
Variable number : str -> Q.
Variable find_id : str -> option found.
Variable r : run.
Hypothesis Hok : run_ok element_str number find_id r.
Hypothesis Hlink : usual (r_link r).
Hypothesis Hinside : forall x around, inside (r_link r) (r_out r) x around -> usual x.

Lemma arc_element es0 es1 a : link_arcs number [] (typed_below [u "arc"] (r_link r) (r_out r)) es0 = Ok (r_arcs r, es1) -> In a (r_arcs r) ->
  exists arc aa, LinkSpec.element_of (r_link r) (r_out r) "arc" arc aa /\ xl "from" arc = Some (a_from a) /\ xl "to" arc = Some (a_to a) /\ xl "arcrole" arc = Some (a_role a).
Proof.
  intros Ha Hin. apply link_arcs_forall2 in Ha. destruct (Forall2_in_r _ _ _ _ Ha Hin) as ([arc aa] & Hp & E). cbn [fst] in E. exists arc, aa.
  change [u "arc"] with (map u ["arc"%string]) in Hp. apply (in_typed _ _ _ _ _ Hlink) in Hp as (t & [<-|[]] & Hel).
  split; [exact Hel|]. apply (arc_of_ok number arc a (Hinside _ _ (proj1 Hel)) E).
Qed.

(** Any kind: the role is on an arc, or "unknown". *)
Lemma run_role_any n x : nth_error (r_heap r) n = Some x -> on_some_arc (r_link r) (r_out r) (n_role x) \/ n_role x = u "unknown".
Proof.
  intros Hx. pose proof Hok as (es & es1 & es2 & eo & ro & dups & Heo & Hro & Ha & He & Hp).
  destruct (link_obj _ _ _ _ _ _ _ _ _ _ Hp Hx) as (l & Hm & Ho).
  assert (On : forall a, In a (r_arcs r) -> on_some_arc (r_link r) (r_out r) (a_role a)).
  { intros a Hin. destruct (arc_element _ _ a Ha Hin) as (arc & aa & H1 & _ & _ & H2). exists arc, aa. auto. }
  destruct (is_physical (r_kind r)) eqn:Ek.
  - assert (G := link_has_node _ _ _ _ _ _ _ _ (n_loc x) l (n_obj x) Hp (proj2 Hm) Ho). rewrite Ek in G.
    destruct (proj2 (G (n_role x))) as [(a & Hin & _ & <-)|[Eu _]]; [exists n, x; auto|left; apply On, Hin|right; exact Eu].
  - assert (T : forall Q a, first_arc (r_arcs r) Q a -> In a (r_arcs r)).
    { intros Q a (p & q & -> & _). apply in_app_iff; right; left; reflexivity. }
    destruct (node_role _ _ _ _ _ _ _ _ Hp n x l Ek Hm) as [a Hf|a _ Hf|_]; [left; eapply On, T, Hf|left; eapply On, T, Hf|right; reflexivity].
Qed.

Hypothesis Hlogical : is_physical (r_kind r) = false.
Lemma run_role n x : nth_error (r_heap r) n = Some x ->
  exists loc al, LinkSpec.element_of (r_link r) (r_out r) "locator" loc al /\ locates find_id loc (o_key (n_obj x)) /\ gives_role (r_link r) (r_out r) loc (n_role x) /\
    ((exists p, In n (get_children (r_heap r) p)) -> exists arc aa, LinkSpec.element_of (r_link r) (r_out r) "arc" arc aa /\ xl "to" arc = xl "label" loc /\ xl "arcrole" arc = Some (n_role x)).
Proof.
  intros Hx. destruct (run_node element_str number find_id r Hok Hlink Hinside Hlogical n x Hx) as (l & loc & al & Mx & Hel & Hloc & Hlab). exists loc, al. split; [exact Hel|]. split; [exact Hloc|].
  pose proof Hok as (es & es1 & es2 & eo & ro & dups & Heo & Hro & Ha & He & Hp).
  assert (T : forall Q a, first_arc (r_arcs r) Q a -> In a (r_arcs r) /\ Q a).
  { intros Q a (p & q & E & P & _). split; [rewrite E; apply in_app_iff; right; left; reflexivity|exact P]. }
  assert (Child : (exists p, In n (get_children (r_heap r) p)) -> exists a, In a (r_arcs r) /\ a_to a = NetModel.l_label l).
  { intros (p & Hc). unfold get_children in Hc. destruct (nth_error (r_heap r) p) as [y|] eqn:Ey; [|destruct Hc].
    pose proof (run_node element_str number find_id r Hok Hlink Hinside Hlogical p y Ey) as (l' & loc' & al' & My & _).
    pose proof (proj1 (C19_logical_child_iff_arc _ _ _ _ _ _ _ _ _ _ _ _ _ _ Hp Heo Hlogical My Mx) Hc) as (role & a & Hin & F & T' & R). eauto. }
  assert (From : forall arc aa, LinkSpec.element_of (r_link r) (r_out r) "arc" arc aa -> exists a, In a (r_arcs r) /\ xl "from" arc = Some (a_from a) /\ xl "to" arc = Some (a_to a)).
  { intros arc aa Hea. destruct (element_arc number _ _ Hlink Hinside _ _ _ Ha arc aa Hea) as (a & Hin & F & T' & _). eauto. }
  destruct (node_role _ _ _ _ _ _ _ _ Hp n x l Hlogical Mx) as [a Hf|a Hno Hf|Hno].
  - apply T in Hf as [Hin Hto]. destruct (arc_element _ _ a Ha Hin) as (arc & aa & H1 & H2 & H3 & H4). rewrite Hto, <- Hlab in H3.
    split; [eapply given_to; eassumption|]. intros _. exists arc, aa. auto.
  - apply T in Hf as [Hin Hfr]. destruct (arc_element _ _ a Ha Hin) as (arc & aa & H1 & H2 & H3 & H4). rewrite Hfr, <- Hlab in H2. split.
    + eapply given_from; [|eassumption|eassumption|eassumption]. intros arc' aa' Hea E. destruct (From _ _ Hea) as (b & Hb & _ & Tb). apply (Hno b Hb). congruence.
    + intros Hc. destruct (Child Hc) as (b & Hb & Eb). destruct (Hno b Hb Eb).
  - split.
    + apply given_none. intros arc' aa' Hea. destruct (From _ _ Hea) as (b & Hb & Fb & Tb). destruct (Hno b Hb) as [N1 N2]. split; intros E; [apply N1|apply N2]; congruence.
    + intros Hc. destruct (Child Hc) as (b & Hb & Eb). destruct (proj1 (Hno b Hb) Eb).
Qed.
End Run.

(** Of a filing that was read from XML or inline documents. *)
Section Assembled.
Variable element_str : xml -> str.
Variable number : str -> Q.
Variable trees : list (str * xml).
Variables (es es1 later : repo xml) (notes : list CompModel.network) (scopes : list scope).
Variable f : filing.
Hypothesis A : FilingStages.assembled element_str number trees es es1 later notes scopes f.
Let docs := dict_values trees.
Hypothesis Husual : all_usual docs.

(** A node of a network is a node of a run. *)
Lemma node_run w r n y : In w (fl_nets f) -> In r (w_roots w) -> reach (ls_heap (fl_links f)) r n -> nth_error (ls_heap (fl_links f)) n = Some y ->
  exists find_id r' x, run_ok element_str number find_id r' /\ extended_link docs (r_link r') (r_out r') /\ xl "role" (r_link r') = Some (w_role w) /\
    link_kind (r_link r') (w_kind w) /\ r_kind r' = w_kind w /\ nth_error (r_heap r') (n - r_base r') = Some x /\ bare x = bare y /\
    (forall loc e, nth_error (get_all_report_elements f) (o_key (n_obj y)) = Some e -> locates find_id loc (o_key (n_obj x)) -> leads_to (get_all_report_elements f) loc e) /\
    ((exists p, In n (get_children (ls_heap (fl_links f)) p)) -> exists p, In (n - r_base r') (get_children (r_heap r') p)).
Proof.
  intros Hw Hr Hn Hy.
  destruct (FilingStages.f_networks _ _ _ _ _ _ _ _ _ A) as (eo & ro & fu & sh & es3 & Ho & Hsh & H).
  destruct (filing_runs element_str number _ eo ro Ho fu sh docs Husual es3 _ _ H) as (rs & d & O & B & N & G & C & _ & K).
  destruct (network_places element_str number _ rs B O fu sh Hsh d N G _ _ C w r n Hw Hr Hn) as (r' & Hr' & ER & EK & Hown).
  destruct (kept_roles _ _ _ _ _ _ C) as [K1 K2].
  assert (Hlt : n - r_base r' < length (r_heap r')) by (unfold own in Hown; lia).
  assert (En : n = r_base r' + (n - r_base r')) by (unfold own in Hown; lia).
  destruct (nth_error (r_heap r') (n - r_base r')) as [x|] eqn:Ex; [|apply nth_error_None in Ex; lia].
  assert (Eb : bare x = bare y).
  { pose proof (K1 n) as E. rewrite Hy in E. rewrite En, (heap_at rs B r' _ Hr' Hlt), Ex in E. cbn [option_map] in E. assert (E' : bare y = bare (shift_node (r_base r') x)) by congruence. symmetry. exact E'. }
  destruct (proj1 (K (r_link r') (r_out r') (w_role w) (w_kind w))) as (A1 & A2 & A3); [exists r'; split; [exact Hr'|unfold r_key; congruence]|].
  eexists _, r', x. split; [apply (O r' Hr')|]. repeat (split; [eassumption|]). split.
  - intros loc e He Hloc. assert (Eobj : n_obj x = n_obj y) by (change (n_obj (bare x) = n_obj (bare y)); congruence). rewrite Eobj in Hloc.
    pose proof (FilingStages.all_numbers _ _ _ _ _ _ _ _ _ A _ _ He) as Et. rewrite <- Et in Hloc.
    apply (FilingStages.leads_locates _ _ _ _ _ _ _ _ _ A loc e (nth_error_In _ _ He)) in Hloc. exact Hloc.
  - intros (p & Hp). destruct (K2 _ _ Hp) as (p' & Hp'). destruct (le_lt_dec (length (heap_of rs)) p') as [Hl|Hl].
    { unfold get_children in Hp'. rewrite (proj2 (nth_error_None _ _) Hl) in Hp'. destruct Hp'. }
    assert (Hq : exists r2, In r2 rs /\ own r2 p').
    { clear -B Hl. unfold own. assert (G : forall rs b, based b rs -> b <= b + p' < b + length (heap_of rs) -> exists r2, In r2 rs /\ r_base r2 <= b + p' < r_base r2 + length (r_heap r2)).
      { clear. intros rs. revert p'. induction rs as [|r0 rs IH]; intros p' b Hb Hp; [cbn in Hp; lia|]. destruct Hb as [E Hb]. unfold heap_of in Hp. cbn [flat_map] in Hp.
        rewrite app_length, map_length in Hp. destruct (lt_dec p' (length (r_heap r0))) as [Hlt|Hge]; [exists r0; split; [left; reflexivity|lia]|].
        destruct (IH (p' - length (r_heap r0)) _ Hb) as (r2 & H1 & H2); [unfold heap_of; lia|]. exists r2. split; [right; exact H1|lia]. }
      destruct (G rs 0 B) as (r2 & H1 & H2); [lia|]. exists r2. split; [exact H1|lia]. }
    destruct Hq as (r2 & Hr2 & Hq). assert (Eq : p' = r_base r2 + (p' - r_base r2)) by (unfold own in Hq; lia).
    rewrite Eq in Hp'. rewrite (children_at rs B r2) in Hp' by (auto; unfold own in Hq; lia). apply in_map_iff in Hp' as (c & Ec & Hc).
    pose proof (child_inside element_str number _ rs O r2 _ _ Hr2 Hc) as Hci.
    assert (r2 = r') as -> by (eapply (own_unique rs 0 r2 r' n); try eassumption; unfold own; lia).
    exists (p' - r_base r'). replace (n - r_base r') with c by lia. exact Hc.
Qed.

(** What one comes to is there. *)
Lemma node_there w r n : In w (fl_nets f) -> In r (w_roots w) -> reach (ls_heap (fl_links f)) r n -> nth_error (ls_heap (fl_links f)) n <> None.
Proof.
  intros Hw Hr Hn.
  destruct (FilingStages.f_networks _ _ _ _ _ _ _ _ _ A) as (eo & ro & fu & sh & es3 & Ho & Hsh & H).
  destruct (filing_runs element_str number _ eo ro Ho fu sh docs Husual es3 _ _ H) as (rs & d & O & B & N & G & C & _ & K).
  destruct (network_places element_str number _ rs B O fu sh Hsh d N G _ _ C w r n Hw Hr Hn) as (r' & Hr' & ER & EK & Hown).
  destruct (kept_roles _ _ _ _ _ _ C) as [K1 _].
  assert (Hlt : n - r_base r' < length (r_heap r')) by (unfold own in Hown; lia).
  assert (En : n = r_base r' + (n - r_base r')) by (unfold own in Hown; lia).
  intros E. pose proof (K1 n) as E1. rewrite E in E1. rewrite En, (heap_at rs B r' _ Hr' Hlt) in E1.
  destruct (nth_error (r_heap r') (n - r_base r')) as [x|] eqn:Ex; [discriminate E1|]. apply nth_error_None in Ex. lia.
Qed.

Lemma arc_written_of k role w e y : is_physical k = false -> of_kind f k role w -> node_in f w e y ->
  exists link outside loc al, extended_link docs link outside /\ xl "role" link = Some role /\ link_kind link k /\
    LinkSpec.element_of link outside "locator" loc al /\ leads_to (get_all_report_elements f) loc e /\ gives_role link outside loc (n_role y).
Proof.
  intros Hk (Hw & Ek & Er) (r & n & Hr & Hn & Hy & He). destruct (node_run w r n y Hw Hr Hn Hy) as (fi & r' & x & H1 & H2 & H3 & H4 & H5 & H6 & H7 & H8 & _).
  destruct (Husual _ _ H2) as [U1 U2]. assert (Hk' : is_physical (r_kind r') = false) by congruence.
  destruct (run_role element_str number fi r' H1 U1 U2 Hk' _ x H6) as (loc & al & G1 & G2 & G3 & _).
  exists (r_link r'), (r_out r'), loc, al. rewrite <- Er, <- Ek. split; [exact H2|]. split; [exact H3|]. split; [exact H4|]. split; [exact G1|]. split; [exact (H8 _ _ He G2)|].
  assert (E : n_role x = n_role y) by (change (n_role (bare x) = n_role (bare y)); congruence). rewrite <- E. exact G3.
Qed.
Lemma arc_children_of k role w e y : is_physical k = false -> of_kind f k role w -> child_in f w e y ->
  exists link outside loc al arc aa, extended_link docs link outside /\ xl "role" link = Some role /\ link_kind link k /\
    LinkSpec.element_of link outside "locator" loc al /\ leads_to (get_all_report_elements f) loc e /\
    LinkSpec.element_of link outside "arc" arc aa /\ xl "to" arc = xl "label" loc /\ xl "arcrole" arc = Some (n_role y).
Proof.
  intros Hk (Hw & Ek & Er) (r & m & n & Hr & Hm & Hn & Hy & He). destruct (node_run w r n y Hw Hr) as (fi & r' & x & H1 & H2 & H3 & H4 & H5 & H6 & H7 & H8 & H9);
    [eapply reach_step; eassumption|exact Hy|].
  destruct (Husual _ _ H2) as [U1 U2]. assert (Hk' : is_physical (r_kind r') = false) by congruence.
  destruct (run_role element_str number fi r' H1 U1 U2 Hk' _ x H6) as (loc & al & G1 & G2 & _ & G4).
  destruct (G4 (H9 (ex_intro _ m Hn))) as (arc & aa & A1 & A2 & A3).
  exists (r_link r'), (r_out r'), loc, al, arc, aa. rewrite <- Er, <- Ek. split; [exact H2|]. split; [exact H3|]. split; [exact H4|]. split; [exact G1|]. split; [exact (H8 _ _ He G2)|].
  assert (E : n_role x = n_role y) by (change (n_role (bare x) = n_role (bare y)); congruence). rewrite <- E. auto.
Qed.
Lemma arc_listed_of fuel w roles ar : In w (fl_nets f) -> get_arc_roles fuel (ls_heap (fl_links f)) (w_roots w) = Some roles -> In ar roles ->
  (exists link outside, extended_link docs link outside /\ xl "role" link = Some (w_role w) /\ link_kind link (w_kind w) /\ on_some_arc link outside ar) \/
  ar = u "unknown".
Proof.
  intros Hw H Hin. unfold get_arc_roles in H. destruct (get_all_nodes fuel _ (w_roots w)) as [ns|] eqn:E; [|discriminate]. injection H as <-.
  pose proof (proj1 (proj2 (dedup_spec _) ar) Hin) as Hm. apply in_map_iff in Hm as (n & En & Hn). destruct (C18_all_nodes _ _ _ _ E) as [_ Hall].
  apply Hall in Hn as (r & Hr & Hn). destruct (nth_error (ls_heap (fl_links f)) n) as [y|] eqn:Ey; [|destruct (node_there w r n Hw Hr Hn Ey)]. subst ar.
  destruct (node_run w r n y Hw Hr Hn Ey) as (fi & r' & x & H1 & H2 & H3 & H4 & _ & H6 & H7 & _).
  destruct (Husual _ _ H2) as [U1 U2]. assert (Ex : n_role x = n_role y) by (change (n_role (bare x) = n_role (bare y)); congruence). rewrite <- Ex.
  destruct (run_role_any element_str number fi r' H1 U1 U2 _ x H6) as [G|G]; [left; eauto 10|right; exact G].
Qed.


Lemma net_same find_id r net : run_ok element_str number find_id r -> is_physical (r_kind r) = true -> In net (r_nets r) ->
  exists ar, forall i n x, In i net -> reach (r_heap r) i n -> nth_error (r_heap r) n = Some x -> n_role x = ar.
Proof.
  intros (es0 & e1 & e2 & eo & ro & dups & Heo & Hro & Ha & He & H) Hp Hnet.
  destruct (C21_networks _ _ _ _ _ _ _ _ H) as (Hne & _ & Hroles). specialize (Hne net Hnet). specialize (Hroles Hp).
  apply In_nth_error in Hnet as Hk. destruct Hk as [q Hq]. destruct net as [|i0 net']; [congruence|]. set (net := i0 :: net') in *.
  destruct (nth_error (r_heap r) i0) as [x0|] eqn:E0; [|exfalso; apply (roots_there _ _ _ _ _ _ _ _ H Hro net i0 Hnet); [left; reflexivity|exact E0]].
  exists (n_role x0). intros i n x Hi Hr. revert x. induction Hr as [|j c Hr IH Hc]; intros x Ex.
  - destruct (Hroles q q net net i i0 x x0 Hq Hq Hi (or_introl eq_refl) Ex E0) as [_ X]. apply X. reflexivity.
  - unfold get_children in Hc. destruct (nth_error (r_heap r) j) as [y|] eqn:Ey; [|destruct Hc].
    rewrite <- (IH y eq_refl). destruct (link_obj _ _ _ _ _ _ _ _ _ _ H Ey) as (l & Hm & _).
    destruct (link_obj _ _ _ _ _ _ _ _ _ _ H Ex) as (l' & Hm' & _).
    apply (proj2 (C19_physical_child_iff_arc _ _ _ _ _ _ _ _ _ _ _ H Heo Hp Hm) c x l' Hm') in Hc. tauto.
Qed.

Lemma arc_physical_of w : In w (fl_nets f) -> is_physical (w_kind w) = true ->
  exists ar, forall r n y, In r (w_roots w) -> reach (ls_heap (fl_links f)) r n -> nth_error (ls_heap (fl_links f)) n = Some y -> n_role y = ar.
Proof.
  intros Hw Hk.
  destruct (FilingStages.f_networks _ _ _ _ _ _ _ _ _ A) as (eo & ro & fu & sh & es3 & Ho & Hsh & H).
  destruct (filing_runs element_str number _ eo ro Ho fu sh (dict_values trees) Husual es3 _ _ H) as (rs & d & O & B & N & G & C & _ & K).
  destruct (kept_roles _ _ _ _ _ _ C) as [K1 _].
  destruct (combined_full element_str number _ rs B O fu sh Hsh d N G _ _ C) as (ls & Hf & W & Hin & _).
  apply Hin in Hw as [Hw|(r' & Hr' & Hw & _)].
  { rewrite <- Hf in Hw. apply filter_In in Hw as [_ Hw]. unfold logical, physical in Hw. rewrite Hk in Hw. discriminate Hw. }
  destruct (nets_of_role r' w Hw) as [ER EK]. unfold nets_of in Hw. apply in_map_iff in Hw as (net & Ew & Hnet).
  assert (Hk' : is_physical (r_kind r') = true) by congruence.
  destruct (net_same _ r' net (O r' Hr') Hk' Hnet) as (ar & Har). exists ar.
  assert (Hsub : forall r n, In r (w_roots w) -> reach (ls_heap (fl_links f)) r n ->
    exists i m, In i net /\ n = r_base r' + m /\ m < length (r_heap r') /\ reach (r_heap r') i m).
  { intros r n Hr Hn. induction Hn as [|j c Hj IH Hc].
    - rewrite <- Ew in Hr. cbn [w_roots] in Hr. apply in_map_iff in Hr as (m & <- & Hm). exists m, m. split; [exact Hm|]. split; [reflexivity|].
      split; [apply (root_inside element_str number _ rs O r' net m Hr' Hnet Hm)|constructor].
    - destruct IH as (i & m & Hi & -> & Hm & Hreach).
      assert (Es : nth_error (ls_heap (fl_links f)) (r_base r' + m) = nth_error (heap_of rs) (r_base r' + m)).
      { apply (proj2 W). intros (R & k & Hkk & Hp').
        assert (Hp0 : place rs (r_role r') (r_kind r') (r_base r' + m)) by (exists r'; repeat (split; [auto|]); unfold own; lia).
        destruct (place_unique rs B _ _ _ _ _ Hp0 Hp') as [_ E]. congruence. }
      rewrite (same_children _ _ _ Es), (children_at rs B r' m Hr' Hm) in Hc. apply in_map_iff in Hc as (c' & <- & Hc').
      exists i, c'. split; [exact Hi|]. split; [reflexivity|]. split; [apply (child_inside element_str number _ rs O r' _ _ Hr' Hc')|eapply reach_step; eassumption]. }
  intros r n y Hr Hn Hy. destruct (Hsub r n Hr Hn) as (i & m & Hi & -> & Hm & Hreach).
  destruct (nth_error (r_heap r') m) as [x|] eqn:Ex; [|apply nth_error_None in Ex; lia].
  rewrite <- (Har i m x Hi Hreach Ex). pose proof (K1 (r_base r' + m)) as E. rewrite Hy, (heap_at rs B r' _ Hr' Hm), Ex in E. cbn [option_map] in E.
  assert (E' : bare y = bare (shift_node (r_base r') x)) by congruence. change (n_role (bare y) = n_role (bare (shift_node (r_base r') x))). congruence.
Qed.
End Assembled.

Section Filing.
Variable parse_date : str -> res date.
Variable element_str : xml -> str.
Variable number : str -> Q.
Variable trees : list (str * xml).
Variable es : repo xml.
Variable f : filing.
Hypothesis Hreads : reads parse_date element_str number trees es f.
Let docs := dict_values trees.
Hypothesis Husual : all_usual docs.

(** The arc role of a node of a presentation, calculation or (logical) definition network is what a link of
    the role and kind gives to a locator of its report element. *)
Theorem C118_written k role w e y : is_physical k = false -> of_kind f k role w -> node_in f w e y ->
  exists link outside loc al, extended_link docs link outside /\ xl "role" link = Some role /\ link_kind link k /\
    LinkSpec.element_of link outside "locator" loc al /\ leads_to (get_all_report_elements f) loc e /\ gives_role link outside loc (n_role y).
Proof. destruct (f_assembled _ _ _ _ _ _ Hreads) as (es1 & st & A & _). exact (arc_written_of _ _ _ _ _ _ _ _ _ A Husual k role w e y). Qed.
(** That of a node below another is written on an arc that leads to it. *)
Theorem C118_children k role w e y : is_physical k = false -> of_kind f k role w -> child_in f w e y ->
  exists link outside loc al arc aa, extended_link docs link outside /\ xl "role" link = Some role /\ link_kind link k /\
    LinkSpec.element_of link outside "locator" loc al /\ leads_to (get_all_report_elements f) loc e /\
    LinkSpec.element_of link outside "arc" arc aa /\ xl "to" arc = xl "label" loc /\ xl "arcrole" arc = Some (n_role y).
Proof. destruct (f_assembled _ _ _ _ _ _ Hreads) as (es1 & st & A & _). exact (arc_children_of _ _ _ _ _ _ _ _ _ A Husual k role w e y). Qed.
(** What a network of any kind lists as its arc roles is written on arcs of links of its role and kind, or is "unknown". *)
Theorem C118_listed fuel w roles ar : In w (fl_nets f) -> get_arc_roles fuel (ls_heap (fl_links f)) (w_roots w) = Some roles -> In ar roles ->
  (exists link outside, extended_link docs link outside /\ xl "role" link = Some (w_role w) /\ link_kind link (w_kind w) /\ on_some_arc link outside ar) \/
  ar = u "unknown".
Proof. destruct (f_assembled _ _ _ _ _ _ Hreads) as (es1 & st & A & _). exact (arc_listed_of _ _ _ _ _ _ _ _ _ A Husual fuel w roles ar). Qed.
(** All nodes of a network of labels, references, footnotes or of definition arcs as they are written have the same arc role. *)
Theorem C118_physical w : In w (fl_nets f) -> is_physical (w_kind w) = true ->
  exists ar, forall r n y, In r (w_roots w) -> reach (ls_heap (fl_links f)) r n -> nth_error (ls_heap (fl_links f)) n = Some y -> n_role y = ar.
Proof. destruct (f_assembled _ _ _ _ _ _ Hreads) as (es1 & st & A & _). exact (arc_physical_of _ _ _ _ _ _ _ _ _ A Husual w). Qed.
End Filing.

(** ** A filing *)

(** A definition link with arcs of two roles: two networks as written, each of one role, and one of both. *)
Definition m_link : xml := LinkProps.l_link "definitionLink" "r"
  [LinkProps.l_loc "a" "t_Assets"; LinkProps.l_loc "c" "t_Cash"; LinkProps.l_loc "d" "t_Debt"; LinkProps.l_arc "one" "a" "c"; LinkProps.l_arc "two" "a" "d"].
Definition m_trees : list (str * xml) := [(u "a.xsd", FilingCalcProps.k_schema "credit"); (u "def.xml", LinkProps.l_doc [m_link])].
Definition m_read : res filing :=
  parse_filing CtxProps.iso_date (fun _ => []) FilingCalcProps.k_number (fun _ l => l) (fun _ l => l) 100 (fun l => l) m_trees [].
Definition m_shown (f : filing) : Prop :=
  fl_errors f = [] /\
  map (fun w => (w_kind w, w_role w, get_arc_roles 100 (ls_heap (fl_links f)) (w_roots w))) (fl_nets f) =
    [(KPhysicalDefinition, u "r", Some [u "one"]); (KPhysicalDefinition, u "r", Some [u "two"]); (KLogicalDefinition, u "r", Some [u "one"; u "two"])].
Example C118_example : exists f, reads CtxProps.iso_date (fun _ => []) FilingCalcProps.k_number m_trees [] f /\ m_shown f.
Proof.
  destruct (read_case m_read m_shown) as (f & E & S); [vm_compute; repeat split|]. exists f. split; [|exact S].
  revert E. unfold m_read, reads. generalize m_trees. intros trees E. exists (fun _ l => l), (fun _ l => l), 100, (fun l => l).
  split; [split; intros n l; apply Permutation_refl|]. split; [intros l; apply Permutation_refl|exact E].
Qed.
(** Its documents meet the hypothesis; in the filing of C117 the debt is below the assets. *)
Example C118_example_hypotheses : all_usual (dict_values m_trees) /\
  exists f, FilingCalcProps.k_reads "credit" f /\ all_usual (dict_values (FilingCalcProps.k_trees "credit")) /\ of_kind f KCalculation (u "r") k_net /\ child_in f k_net (k_element "Debt" 1) (n_at f 2).
Proof.
  split.
  - intros link outside H.
    assert (L : link = m_link /\ outside = [LinkProps.l_doc [m_link]]).
    { apply LinkProofs.in_all_links in H.
      assert (E : LinkModel.all_links (dict_values m_trees) = [(m_link, [LinkProps.l_doc [m_link]])]) by (vm_compute; reflexivity).
      rewrite E in H. destruct H as [H|[]]. split; congruence. }
    assert (K : forallb (fun q => match dict_get key_eqb (x_scope q) (Some (u "xlink")) with Some s => str_eqb s LinkSpec.XLINK | None => false end)
      (link :: map fst (LinkModel.inner outside link)) = true) by (destruct L as [-> ->]; vm_compute; reflexivity).
    split; [exact (usual_kids _ K link (or_introl eq_refl))|]. intros x around Hi. apply LinkProofs.inner_inside in Hi.
    apply (usual_kids _ K x). right. apply in_map_iff. exists (x, around). auto.
  - destruct C117_example as (f & A & B & C & _). exists f. split; [exact A|]. split; [apply FilingCalcProps.C116_example_hypotheses|]. auto.
Qed.

Print Assumptions C118_written.
Print Assumptions C118_children.
Print Assumptions C118_listed.
Print Assumptions C118_physical.
