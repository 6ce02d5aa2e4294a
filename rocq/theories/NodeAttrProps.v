(** C117: order, weight and preferred label of the nodes of the networks of a filing that was read are
    those written on arcs of its documents. *)
From Coq Require Import QArith Qround Permutation Lqa.
From Verif Require Import Base QNameModel QNameSpec ErrBase ErrTable ErrModel CtxModel CtxSpec.
From Verif Require ConceptModel ConceptLoad CompModel CtxProofs ConceptProps.
From Verif Require Import NetModel NetSpec NetProofs NetLinkProofs NetCombineProofs NetProps LangModel LinkModel LinkSpec LinkProofs LinkLoopProofs LinkNetProofs LinkDocProofs.
From Verif Require FilingNetProofs LinkProps FilingCalcProps.
From Verif Require Import FilingModel FilingSpec FilingProofs FilingStages FilingProps.
Local Open Scope nat_scope.
Local Opaque insert create.

(** ** Specification *)

(** [q] is the number written there, [d] if there is none. *)
Definition written_number (number : str -> Q) (arc : xml) (name : string) (d q : Q) : Prop :=
  match attr arc (u name) with Some s => q = number s | None => q = d end.
(** The nearest whole number; of two, the even one. *)
Definition nearest (q : Q) (z : Z) : Prop :=
  (inject_Z z - (1 # 2) <= q)%Q /\ (q <= inject_Z z + (1 # 2))%Q /\
  ((q == inject_Z z - (1 # 2) \/ q == inject_Z z + (1 # 2))%Q -> Z.Even z).
(** The attributes of the node are those written on the arc. *)
Definition written_on (number : str -> Q) (k : kind) (arc : xml) (y : node) : Prop :=
  match k with
  | KPresentation => written_number number arc "order" 1 (n_order y) /\ n_weight y = 0%Q /\
      n_pref y = Some (match attr arc (u "preferredLabel") with Some p => p | None => u "http://www.xbrl.org/2003/role/label" end)
  | KCalculation => written_number number arc "order" 1 (n_order y) /\ written_number number arc "weight" 0 (n_weight y) /\ n_pref y = None
  | _ => (exists q z, written_number number arc "order" 0 q /\ nearest q z /\ n_order y = inject_Z z) /\ n_weight y = 0%Q /\ n_pref y = None
  end.
(** The attributes of nodes that no arc leads to. *)
Definition unwritten (k : kind) (y : node) : Prop :=
  n_order y = match k with KLogicalDefinition => 0%Q | _ => 1%Q end /\ n_weight y = 0%Q /\ n_pref y = None.

(** In the link there is a locator of the report element, and an arc to it with the attributes. *)
Definition says (number : str -> Q) (es : list element) (k : kind) (link : xml) (outside : list xml) (e : element) (y : node) : Prop :=
  exists loc al arc aa, LinkSpec.element_of link outside "locator" loc al /\ leads_to es loc e /\ LinkSpec.element_of link outside "arc" arc aa /\
    xl "to" arc = xl "label" loc /\ xl "from" arc <> xl "to" arc /\ written_on number k arc y.
(** No arc leads to a locator of the report element, or one from it to itself does. *)
Definition silent (es : list element) (link : xml) (outside : list xml) (e : element) : Prop :=
  exists loc al, LinkSpec.element_of link outside "locator" loc al /\ leads_to es loc e /\
    ((forall arc aa, LinkSpec.element_of link outside "arc" arc aa -> xl "to" arc <> xl "label" loc) \/
     exists arc aa, LinkSpec.element_of link outside "arc" arc aa /\ xl "to" arc = xl "label" loc /\ xl "from" arc = xl "to" arc).
Definition loops (link : xml) (outside : list xml) : Prop :=
  exists arc aa, LinkSpec.element_of link outside "arc" arc aa /\ xl "from" arc = xl "to" arc.

(** The network has the node, which shows the report element; it has it below another. *)
Definition node_in (f : filing) (w : net) (e : element) (y : node) : Prop :=
  exists r n, In r (w_roots w) /\ reach (ls_heap (fl_links f)) r n /\ nth_error (ls_heap (fl_links f)) n = Some y /\
    nth_error (get_all_report_elements f) (o_key (n_obj y)) = Some e.
Definition child_in (f : filing) (w : net) (e : element) (y : node) : Prop :=
  exists r n m, In r (w_roots w) /\ reach (ls_heap (fl_links f)) r n /\ In m (get_children (ls_heap (fl_links f)) n) /\
    nth_error (ls_heap (fl_links f)) m = Some y /\ nth_error (get_all_report_elements f) (o_key (n_obj y)) = Some e.

(** ** Combination changes children only *)

Definition bare (x : node) : node := set_children x [].
Definition kept (h h' : heap) : Prop :=
  (forall n, option_map bare (nth_error h' n) = option_map bare (nth_error h n)) /\
  (forall n k, In k (get_children h' n) -> exists n', In k (get_children h n')).
Lemma kept_refl h : kept h h. Proof. split; eauto. Qed.
Lemma kept_trans h1 h2 h3 : kept h1 h2 -> kept h2 h3 -> kept h1 h3.
Proof. intros [A B] [C D]. split; [intros n; rewrite C; apply A|]. intros n k Hk. destruct (D _ _ Hk) as (n' & Hn'). eauto. Qed.
Lemma kept_give h p r : kept h (give h p r).
Proof.
  split.
  - intros n. unfold give. rewrite nth_add_all. destruct (nth_error h n) as [x|]; [|reflexivity]. cbn. destruct (added _ n); reflexivity.
  - intros n k Hk. destruct (Nat.eq_dec n p) as [->|Hn].
    + destruct (lt_dec p (length h)) as [Hl|Hl].
      * apply give_children in Hk; [|exact Hl]. destruct Hk as [Hk|[_ Hk]]; eauto.
      * unfold get_children, give in Hk. rewrite nth_add_all in Hk. rewrite (proj2 (nth_error_None h p)) in Hk by lia. destruct Hk.
    + exists n. rewrite <- (same_children _ _ n (give_nth h p r n Hn)). exact Hk.
Qed.
Lemma kept_roots agg : forall roots h A h' A', combine_roots h agg A roots = (h', A') -> kept h h'.
Proof.
  induction roots as [|r roots IH]; intros h A h' A' H; cbn [combine_roots] in H.
  - injection H as <- _. apply kept_refl.
  - destruct (find _ agg) as [p|]; [|eapply IH, H]. fold (give h p r) in H. eapply kept_trans; [apply kept_give|eapply IH, H].
Qed.
Lemma kept_loop fuel shuffle : forall networks h A h' A', combine_loop fuel shuffle h A networks = Some (h', A') -> kept h h'.
Proof.
  induction networks as [|roots networks IH]; intros h A h' A' H; cbn [combine_loop] in H.
  - injection H as <- _. apply kept_refl.
  - destruct (all_descendants fuel h A) as [agg|]; [|discriminate]. destruct (combine_roots h (shuffle agg) A roots) as [h1 A1] eqn:E1.
    eapply kept_trans; [eapply kept_roots, E1|eapply IH, H].
Qed.
Lemma kept_networks fuel shuffle h networks h' roots : combine_networks fuel shuffle h networks = Ok (h', roots) -> kept h h'.
Proof.
  unfold combine_networks. destruct (rev networks) as [|a [|b rest]]; [discriminate| |].
  - intros [= <- _]. apply kept_refl.
  - destruct (combine_loop fuel shuffle h a (b :: rest)) as [[h1 r1]|] eqn:E; [|discriminate]. intros [= <- _]. eapply kept_loop, E.
Qed.
Lemma kept_groups fuel shuffle : forall gs h ws h', combine_groups fuel shuffle gs h = Ok (ws, h') -> kept h h'.
Proof.
  induction gs as [|[c g] gs IH]; intros h ws h' H; cbn [combine_groups] in H.
  - injection H as _ <-. apply kept_refl.
  - apply bind_ok in H as ([h1 rs] & H1 & H). destruct (rev g) as [|w _]; [discriminate|]. cbn [fst snd] in H.
    apply bind_ok in H as ([ws2 h2] & H2 & H). injection H as _ <-. cbn [fst snd].
    eapply kept_trans; [eapply kept_networks, H1|eapply IH, H2].
Qed.
Lemma kept_roles fuel shuffle : forall d h ws h', combine_roles fuel shuffle d h = Ok (ws, h') -> kept h h'.
Proof.
  induction d as [|[R l] d IH]; intros h ws h' H; cbn [combine_roles] in H.
  - injection H as _ <-. apply kept_refl.
  - apply bind_ok in H as ([w1 h1] & H1 & H). cbn [fst snd] in H. apply bind_ok in H as ([w2 h2] & H2 & H). injection H as _ <-. cbn [fst snd].
    eapply kept_trans; [|eapply IH, H2]. unfold combine_role in H1. apply bind_ok in H1 as ([w3 h3] & H3 & H1). injection H1 as _ <-. cbn [fst snd].
    eapply kept_groups, H3.
Qed.

(** ** The attributes of a node of a link *)

Lemma round_nearest q : nearest q (round_half_even q).
Proof.
  pose proof (Qfloor_le q) as H1. pose proof (Qlt_floor q) as H2. rewrite inject_Z_plus in H2. unfold nearest, round_half_even.
  set (f := Qfloor q) in *. change (inject_Z 1) with 1%Q in H2. destruct (Qcompare (q - inject_Z f) (1 # 2)) eqn:E.
  - apply Qeq_alt in E. assert (Eq : (q == inject_Z f + (1 # 2))%Q) by (rewrite <- E; ring). destruct (Z.even f) eqn:Ev.
    + split; [rewrite Eq; lra|]. split; [rewrite Eq; lra|]. intros _. apply Z.even_spec, Ev.
    + rewrite inject_Z_plus. change (inject_Z 1) with 1%Q. split; [rewrite Eq; lra|]. split; [rewrite Eq; lra|]. intros _. apply Z.even_spec.
      rewrite Z.even_add, Ev. reflexivity.
  - apply Qlt_alt in E. split; [lra|]. split; [lra|]. intros [K|K]; rewrite K in *; lra.
  - apply Qgt_alt in E. rewrite inject_Z_plus. change (inject_Z 1) with 1%Q. split; [lra|]. split; [lra|]. intros [K|K]; rewrite K in *; lra.
Qed.

Section Run.
Variable element_str : xml -> str.
Variable number : str -> Q.
Variable find_id : str -> option found.
Variable r : run.
Hypothesis Hok : run_ok element_str number find_id r.
Hypothesis Hlink : usual (r_link r).
Hypothesis Hinside : forall x around, inside (r_link r) (r_out r) x around -> usual x.
Hypothesis Hlogical : is_physical (r_kind r) = false.

Lemma arc_written es0 es1 a : link_arcs number [] (typed_below [u "arc"] (r_link r) (r_out r)) es0 = Ok (r_arcs r, es1) -> In a (r_arcs r) ->
  exists arc aa, LinkSpec.element_of (r_link r) (r_out r) "arc" arc aa /\ xl "from" arc = Some (a_from a) /\ xl "to" arc = Some (a_to a) /\
    a_order a = option_map number (attr arc (u "order")) /\ a_weight a = option_map number (attr arc (u "weight")) /\ a_pref a = attr arc (u "preferredLabel").
Proof.
  intros Ha Hin. apply link_arcs_forall2 in Ha. destruct (Forall2_in_r _ _ _ _ Ha Hin) as ([arc aa] & Hp & E). cbn [fst] in E. exists arc, aa.
  change [u "arc"] with (map u ["arc"%string]) in Hp. apply (in_typed _ _ _ _ _ Hlink) in Hp as (t & [<-|[]] & Hel).
  destruct (arc_of_ok number arc a (Hinside _ _ (proj1 Hel)) E) as (F & T & _). unfold arc_of in E.
  apply bind_ok in E as (f & _ & E). apply bind_ok in E as (t & _ & E). apply bind_ok in E as (ro & _ & E). injection E as <-. cbn. auto 10.
Qed.

Lemma on_arc k i o arc a y : is_physical k = false -> a_order a = option_map number (attr arc (u "order")) -> a_weight a = option_map number (attr arc (u "weight")) ->
  a_pref a = attr arc (u "preferredLabel") -> bare y = of_arc k i o a -> written_on number k arc y.
Proof.
  intros Hk Eo Ew Ep E. assert (E1 : n_order y = arc_order k a) by (change (n_order (bare y) = arc_order k a); rewrite E; reflexivity).
  assert (E2 : n_weight y = arc_weight k a) by (change (n_weight (bare y) = arc_weight k a); rewrite E; reflexivity).
  assert (E3 : n_pref y = arc_pref k a) by (change (n_pref (bare y) = arc_pref k a); rewrite E; reflexivity).
  unfold written_on, written_number. rewrite E1, E2, E3. unfold arc_order, arc_weight, arc_pref. rewrite Eo, Ew, Ep. destruct k; try discriminate Hk; cbn [default_order].
  - destruct (attr arc (u "order")), (attr arc (u "preferredLabel")); cbn; auto.
  - destruct (attr arc (u "order")), (attr arc (u "weight")); cbn; auto.
  - split; [|auto]. exists (match attr arc (u "order") with Some s => number s | None => 0%Q end), (round_half_even (match attr arc (u "order") with Some s => number s | None => 0%Q end)).
    split; [destruct (attr arc (u "order")); reflexivity|]. split; [apply round_nearest|]. destruct (attr arc (u "order")); reflexivity.
Qed.
Lemma off_arc k i o ro y : is_physical k = false -> bare y = plain k i o ro -> unwritten k y.
Proof.
  intros Hk E. unfold unwritten. change (n_order (bare y) = match k with KLogicalDefinition => 0%Q | _ => 1%Q end /\ n_weight (bare y) = 0%Q /\ n_pref (bare y) = None).
  rewrite E. destruct k; try discriminate Hk; cbn; auto.
Qed.

(** What the link says about a node. *)
Lemma run_attrs n x : nth_error (r_heap r) n = Some x ->
  exists loc al, LinkSpec.element_of (r_link r) (r_out r) "locator" loc al /\ locates find_id loc (o_key (n_obj x)) /\
  ((exists arc aa, LinkSpec.element_of (r_link r) (r_out r) "arc" arc aa /\ xl "to" arc = xl "label" loc /\ xl "from" arc <> xl "to" arc /\ written_on number (r_kind r) arc x) \/
   (unwritten (r_kind r) x /\
    ((forall arc aa, LinkSpec.element_of (r_link r) (r_out r) "arc" arc aa -> xl "to" arc <> xl "label" loc) /\ (forall p, ~ In n (get_children (r_heap r) p)) \/
     exists arc aa, LinkSpec.element_of (r_link r) (r_out r) "arc" arc aa /\ xl "to" arc = xl "label" loc /\ xl "from" arc = xl "to" arc))).
Proof.
  intros Hx. destruct (run_node element_str number find_id r Hok Hlink Hinside Hlogical n x Hx) as (l & loc & al & Mx & Hel & Hloc & Hlab). exists loc, al. split; [exact Hel|]. split; [exact Hloc|].
  pose proof Hok as (es & es1 & es2 & eo & ro & dups & Heo & Hro & Ha & He & Hp).
  destruct (link_attrs _ _ _ _ _ _ _ _ _ _ _ Hp Mx) as (ks & x0 & Ex & E0). unfold relevant in E0. rewrite Hlogical in E0.
  assert (Eb : bare x = bare x0) by (rewrite Ex; reflexivity).
  destruct (find (into (NetModel.l_label l)) (r_arcs r)) as [a|] eqn:Ef.
  - apply find_some in Ef as [Hin Hto]. apply str_eqb_eq in Hto. destruct (arc_written _ _ a Ha Hin) as (arc & aa & Hea & F & T & Eo & Ew & Ep).
    assert (Et : xl "to" arc = xl "label" loc) by congruence. unfold from_arc in E0. unfold out_of in E0. destruct (str_eqb_spec (a_from a) (NetModel.l_label l)) as [Ec|Ec].
    + right. split; [eapply off_arc; [exact Hlogical|rewrite Eb, E0; reflexivity]|]. right. exists arc, aa. split; [exact Hea|]. split; [exact Et|congruence].
    + left. exists arc, aa. split; [exact Hea|]. split; [exact Et|]. split; [congruence|]. eapply on_arc; try eassumption. rewrite Eb, E0. reflexivity.
  - right. split; [eapply off_arc; [exact Hlogical|rewrite Eb, E0; reflexivity]|]. left. split.
    + intros arc aa Hea Et. destruct (element_arc number _ _ Hlink Hinside _ _ _ Ha arc aa Hea) as (a & Hin & _ & Ta & _).
      apply (find_none _ _ Ef) in Hin. unfold into in Hin. apply str_eqb_neq in Hin. congruence.
    + intros p Hc. unfold get_children in Hc. destruct (nth_error (r_heap r) p) as [y|] eqn:Ey; [|destruct Hc].
      pose proof (run_node element_str number find_id r Hok Hlink Hinside Hlogical p y Ey) as T. destruct T as [l' T]. destruct T as [loc' T]. destruct T as [al' T]. destruct T as [My T].
      pose proof (proj1 (C19_logical_child_iff_arc _ _ _ _ _ _ _ _ _ _ _ _ _ _ Hp Heo Hlogical My Mx) Hc) as (role & a & Hin & F & T' & R).
      apply (find_none _ _ Ef) in Hin. unfold into in Hin. apply str_eqb_neq in Hin. congruence.
Qed.
End Run.

Lemma written_on_bare number k arc x y : bare x = bare y -> written_on number k arc x -> written_on number k arc y.
Proof.
  intros E. assert (E1 : n_order x = n_order y) by (change (n_order (bare x) = n_order (bare y)); congruence).
  assert (E2 : n_weight x = n_weight y) by (change (n_weight (bare x) = n_weight (bare y)); congruence).
  assert (E3 : n_pref x = n_pref y) by (change (n_pref (bare x) = n_pref (bare y)); congruence).
  unfold written_on. rewrite E1, E2, E3. auto.
Qed.
Lemma unwritten_bare k x y : bare x = bare y -> unwritten k x -> unwritten k y.
Proof.
  intros E. assert (E1 : n_order x = n_order y) by (change (n_order (bare x) = n_order (bare y)); congruence).
  assert (E2 : n_weight x = n_weight y) by (change (n_weight (bare x) = n_weight (bare y)); congruence).
  assert (E3 : n_pref x = n_pref y) by (change (n_pref (bare x) = n_pref (bare y)); congruence).
  unfold unwritten. rewrite E1, E2, E3. auto.
Qed.

(** Of a filing that was read from XML or inline documents. *)
Section Assembled.
Variable element_str : xml -> str.
Variable number : str -> Q.
Variable trees : list (str * xml).
Variables (es es1 later : repo xml) (notes : list CompModel.network) (scopes : list scope).
Variable f : filing.
Hypothesis A : FilingStages.assembled element_str number trees es es1 later notes scopes f.
Let docs := dict_values trees.
Hypothesis Husual : all_usual docs.

Lemma node_attrs k role w r n y e : is_physical k = false -> of_kind f k role w -> In r (w_roots w) -> reach (ls_heap (fl_links f)) r n ->
  nth_error (ls_heap (fl_links f)) n = Some y -> nth_error (get_all_report_elements f) (o_key (n_obj y)) = Some e ->
  exists link outside, extended_link docs link outside /\ xl "role" link = Some role /\ link_kind link k /\
    (says number (get_all_report_elements f) k link outside e y \/
     unwritten k y /\ silent (get_all_report_elements f) link outside e /\ ((exists p, In n (get_children (ls_heap (fl_links f)) p)) -> loops link outside)).
Proof.
  intros Hk (Hw & Ek & Er) Hr Hn Hy He.
  destruct (FilingStages.f_networks _ _ _ _ _ _ _ _ _ A) as (eo & ro & fu & sh & es3 & Ho & Hsh & H).
  destruct (filing_runs element_str number _ eo ro Ho fu sh docs Husual es3 _ _ H) as (rs & d & O & B & N & G & C & _ & K).
  destruct (network_places element_str number _ rs B O fu sh Hsh d N G _ _ C w r n Hw Hr Hn) as (r' & Hr' & ER & EK & Hown).
  destruct (kept_roles _ _ _ _ _ _ C) as [K1 K2].
  assert (Hlt : n - r_base r' < length (r_heap r')) by (unfold own in Hown; lia).
  assert (En : n = r_base r' + (n - r_base r')) by (unfold own in Hown; lia).
  destruct (nth_error (r_heap r') (n - r_base r')) as [x|] eqn:Ex; [|apply nth_error_None in Ex; lia].
  assert (Eb : bare x = bare y).
  { pose proof (K1 n) as E. rewrite Hy in E. rewrite En, (heap_at rs B r' _ Hr' Hlt), Ex in E. cbn [option_map] in E. assert (E' : bare y = bare (shift_node (r_base r') x)) by congruence. symmetry. exact E'. }
  destruct (proj1 (K (r_link r') (r_out r') role k)) as (A1 & A2 & A3); [exists r'; split; [exact Hr'|unfold r_key; congruence]|]. destruct (Husual _ _ A1) as [U1 U2].
  exists (r_link r'), (r_out r'). repeat (split; [assumption|]).
  assert (Hk' : is_physical (r_kind r') = false) by congruence.
  destruct (run_attrs element_str number _ r' (O r' Hr') U1 U2 Hk' _ x Ex) as (loc & al & Hel & Hloc & D). rewrite EK, Ek in D.
  assert (Eobj : n_obj x = n_obj y) by (change (n_obj (bare x) = n_obj (bare y)); congruence). rewrite Eobj in Hloc.
  pose proof (FilingStages.all_numbers _ _ _ _ _ _ _ _ _ A _ _ He) as Et. rewrite <- Et in Hloc.
  apply (FilingStages.leads_locates _ _ _ _ _ _ _ _ _ A loc e (nth_error_In _ _ He)) in Hloc.
  destruct D as [(arc & aa & D1 & D2 & D3 & D4)|[D1 D2]].
  - left. exists loc, al, arc, aa. repeat (split; [assumption|]). eapply written_on_bare; eassumption.
  - right. split; [eapply unwritten_bare; eassumption|]. split.
    + exists loc, al. split; [exact Hel|]. split; [exact Hloc|]. destruct D2 as [[D2 _]|D2]; [left; exact D2|right; exact D2].
    + intros (p & Hp). destruct D2 as [[_ D2]|(arc & aa & D2 & _ & D3)]; [|exists arc, aa; auto]. exfalso.
      destruct (K2 _ _ Hp) as (p' & Hp'). destruct (le_lt_dec (length (heap_of rs)) p') as [Hl|Hl].
      { unfold get_children in Hp'. rewrite (proj2 (nth_error_None _ _) Hl) in Hp'. destruct Hp'. }
      assert (Hq : exists r2, In r2 rs /\ own r2 p').
      { clear -B Hl. unfold own. assert (G : forall rs b, based b rs -> b <= b + p' < b + length (heap_of rs) -> exists r2, In r2 rs /\ r_base r2 <= b + p' < r_base r2 + length (r_heap r2)).
        { clear. intros rs. revert p'. induction rs as [|r0 rs IH]; intros p' b Hb Hp; [cbn in Hp; lia|]. destruct Hb as [E Hb]. unfold heap_of in Hp. cbn [flat_map] in Hp.
          rewrite app_length, map_length in Hp. destruct (lt_dec p' (length (r_heap r0))) as [Hlt|Hge]; [exists r0; split; [left; reflexivity|lia]|].
          destruct (IH (p' - length (r_heap r0)) _ Hb) as (r2 & H1 & H2); [unfold heap_of; lia|]. exists r2. split; [right; exact H1|lia]. }
        destruct (G rs 0 B) as (r2 & H1 & H2); [lia|]. exists r2. split; [exact H1|lia]. }
      destruct Hq as (r2 & Hr2 & Hq). assert (Eq : p' = r_base r2 + (p' - r_base r2)) by (unfold own in Hq; lia).
      rewrite Eq in Hp'. rewrite (children_at rs B r2) in Hp' by (auto; unfold own in Hq; lia). apply in_map_iff in Hp' as (c & Ec & Hc).
      pose proof (child_inside element_str number _ rs O r2 _ _ Hr2 Hc) as Hci.
      assert (r2 = r') as -> by (eapply (own_unique rs 0 r2 r' n); try eassumption; unfold own; lia).
      apply (D2 (p' - r_base r')). replace (n - r_base r') with c by lia. exact Hc.
Qed.

Lemma written_of k role w e y : is_physical k = false -> of_kind f k role w -> node_in f w e y ->
  exists link outside, extended_link docs link outside /\ xl "role" link = Some role /\ link_kind link k /\
    (says number (get_all_report_elements f) k link outside e y \/ unwritten k y /\ silent (get_all_report_elements f) link outside e).
Proof.
  intros Hk Ho (r & n & Hr & Hn & Hy & He). destruct (node_attrs k role w r n y e Hk Ho Hr Hn Hy He) as (link & outside & H1 & H2 & H3 & H4).
  exists link, outside. repeat (split; [assumption|]). destruct H4 as [H4|(H4 & H5 & _)]; auto.
Qed.
Lemma children_of k role w e y : is_physical k = false -> of_kind f k role w -> child_in f w e y ->
  (forall link outside, extended_link docs link outside -> xl "role" link = Some role -> link_kind link k -> ~ loops link outside) ->
  exists link outside, extended_link docs link outside /\ xl "role" link = Some role /\ link_kind link k /\
    says number (get_all_report_elements f) k link outside e y.
Proof.
  intros Hk Ho (r & n & m & Hr & Hn & Hm & Hy & He) Hno.
  destruct (node_attrs k role w r m y e Hk Ho Hr) as (link & outside & H1 & H2 & H3 & H4); [eapply reach_step; eassumption|assumption|assumption|].
  exists link, outside. repeat (split; [assumption|]). destruct H4 as [H4|(_ & _ & H5)]; [exact H4|]. exfalso. eapply Hno; eauto.
Qed.
End Assembled.

Section Filing.
Variable parse_date : str -> res date.
Variable element_str : xml -> str.
Variable number : str -> Q.
Variable trees : list (str * xml).
Variable es : repo xml.
Variable f : filing.
Hypothesis Hreads : reads parse_date element_str number trees es f.
Let docs := dict_values trees.
Hypothesis Husual : all_usual docs.

(** Order, weight and preferred label of a node are written on an arc of a link of the role and kind that
    leads to a locator of its report element; or there is no such arc, or a loop, and they are the usual ones. *)
Theorem C117_written k role w e y : is_physical k = false -> of_kind f k role w -> node_in f w e y ->
  exists link outside, extended_link docs link outside /\ xl "role" link = Some role /\ link_kind link k /\
    (says number (get_all_report_elements f) k link outside e y \/ unwritten k y /\ silent (get_all_report_elements f) link outside e).
Proof. destruct (f_assembled _ _ _ _ _ _ Hreads) as (es1 & st & A & _). exact (written_of _ _ _ _ _ _ _ _ _ A Husual k role w e y). Qed.
(** Those of a node below another are written on an arc, unless the links have loops. *)
Theorem C117_children_partial k role w e y : is_physical k = false -> of_kind f k role w -> child_in f w e y ->
  (forall link outside, extended_link docs link outside -> xl "role" link = Some role -> link_kind link k -> ~ loops link outside) ->
  exists link outside, extended_link docs link outside /\ xl "role" link = Some role /\ link_kind link k /\
    says number (get_all_report_elements f) k link outside e y.
Proof. destruct (f_assembled _ _ _ _ _ _ Hreads) as (es1 & st & A & _). exact (children_of _ _ _ _ _ _ _ _ _ A Husual k role w e y). Qed.
(** The check of balances in terms of the arcs: what a consistent network shows below a concept comes with the
    weight of an arc, and the weight fits the balances declared. *)
Theorem C116_arcs_partial role w fuel e e' q : NoDup (map fst trees) -> ConceptLoad.prefixes_usual trees ->
  (forall link outside, extended_link docs link outside -> xl "role" link = Some role -> link_kind link KCalculation -> ~ loops link outside) ->
  of_kind f KCalculation role w -> FilingCalcProps.balance_consistent f w fuel = Ok true -> FilingCalcProps.child_with f w e e' q ->
  exists link outside loc al arc aa b b', extended_link docs link outside /\ xl "role" link = Some role /\ link_kind link KCalculation /\
    LinkSpec.element_of link outside "locator" loc al /\ leads_to (get_all_report_elements f) loc e' /\ LinkSpec.element_of link outside "arc" arc aa /\
    xl "to" arc = xl "label" loc /\ written_number number arc "weight" 0 q /\
    FilingCalcProps.declared_balance trees e b /\ FilingCalcProps.declared_balance trees e' b' /\ (b = b' /\ (0 <= q)%Q \/ b <> b' /\ (q <= 0)%Q).
Proof.
  intros Hd Hp Hno Ho Hc Hq. destruct (FilingCalcProps.C116_balance_sound _ _ _ _ _ _ Hreads Hd Hp role w Ho fuel Hc) as [_ G].
  destruct (G e e' q Hq) as (b & b' & D1 & D2 & D3). destruct Hq as (r & n & x & m & y & H1 & H2 & H3 & H4 & H5 & H6 & H7 & <-).
  destruct (C117_children_partial KCalculation role w e' y eq_refl Ho) as (link & outside & A1 & A2 & A3 & loc & al & arc & aa & B1 & B2 & B3 & B4 & _ & _ & B5 & _);
    [exists r, n, m; auto|exact Hno|]. exists link, outside, loc, al, arc, aa, b, b'. auto 20.
Qed.
End Filing.

(** ** A filing *)

Definition n_at (f : filing) (n : nat) : node := nth n (ls_heap (fl_links f)) (Node 0 (Obj 0 OConcept) [] 0 0 None []).
Definition k_element (name : string) (i : nat) : element := Element (QName (u "urn:t") (u "t") (u name)) (Some (u "t_" ++ u name)) KConcept i.
Definition k_net : net := Net KCalculation (u "r") [0].
Definition k_shown (f : filing) : Prop :=
  fl_nets f = [k_net] /\ map n_kids (ls_heap (fl_links f)) = [[2; 1]; []; []] /\
  map (fun x => o_key (n_obj x)) (ls_heap (fl_links f)) = [2; 0; 1] /\
  get_all_report_elements f = [k_element "Cash" 0; k_element "Debt" 1; k_element "Assets" 2] /\
  map n_order (ls_heap (fl_links f)) = [1; 2; 1]%Q /\ map n_weight (ls_heap (fl_links f)) = [0; 1; -1]%Q.

(** The debt is below the assets, with the weight and order of the arc; the link has no loop. *)
Example C117_example : exists f, FilingCalcProps.k_reads "credit" f /\ of_kind f KCalculation (u "r") k_net /\
  child_in f k_net (k_element "Debt" 1) (n_at f 2) /\ n_order (n_at f 2) = 1%Q /\ n_weight (n_at f 2) = (-1)%Q /\
  forall link outside, extended_link (dict_values (FilingCalcProps.k_trees "credit")) link outside -> ~ loops link outside.
Proof.
  destruct (read_case (FilingCalcProps.k_read "credit") k_shown) as (f & E & S1 & S2 & S3 & S4 & S5 & S6); [vm_compute; repeat split|].
  exists f. split; [apply FilingCalcProps.k_read_reads, E|]. clear E. split; [split; [rewrite S1; left; reflexivity|split; reflexivity]|].
  assert (Hn : forall A (g : node -> A) n a, nth_error (map g (ls_heap (fl_links f))) n = Some a -> nth_error (ls_heap (fl_links f)) n = Some (n_at f n) /\ g (n_at f n) = a).
  { intros A g n a Ha. rewrite nth_error_map in Ha. destruct (nth_error (ls_heap (fl_links f)) n) as [x|] eqn:Ex; [|discriminate Ha]. injection Ha as <-.
    unfold n_at. rewrite (nth_error_nth _ _ _ Ex). auto. }
  destruct (Hn _ n_kids 0 [2; 1]) as [H0 K0]; [rewrite S2; reflexivity|].
  destruct (Hn _ (fun x => o_key (n_obj x)) 2 1) as [H2 K2]; [rewrite S3; reflexivity|].
  destruct (Hn _ n_order 2 1%Q) as [_ O2]; [rewrite S5; reflexivity|]. destruct (Hn _ n_weight 2 (-1)%Q) as [_ W2]; [rewrite S6; reflexivity|].
  split.
  { exists 0, 0, 2. split; [left; reflexivity|]. split; [constructor|]. split; [unfold get_children; rewrite H0, K0; left; reflexivity|]. split; [exact H2|].
    rewrite K2, S4. reflexivity. }
  split; [exact O2|]. split; [exact W2|]. intros link outside Hl (arc & aa & Ha & Hft).
  apply LinkProofs.in_all_links in Hl.
  assert (El : all_links (dict_values (FilingCalcProps.k_trees "credit")) = [(FilingCalcProps.k_link, [LinkProps.l_doc [FilingCalcProps.k_link]])]) by (vm_compute; reflexivity).
  rewrite El in Hl. destruct Hl as [Hl|[]]. assert (L : link = FilingCalcProps.k_link /\ outside = [LinkProps.l_doc [FilingCalcProps.k_link]]) by (split; congruence).
  destruct L as [-> ->]. apply arcs_of in Ha.
  assert (Ea : map fst (LinkSpec.elements_of FilingCalcProps.k_link [LinkProps.l_doc [FilingCalcProps.k_link]] ["arc"%string]) =
    [FilingCalcProps.k_arc "a" "c" "2" "1"; FilingCalcProps.k_arc "a" "d" "1" "-1"]) by (vm_compute; reflexivity).
  rewrite Ea in Ha. destruct Ha as [<-|[<-|[]]]; revert Hft; vm_compute; discriminate.
Qed.

(** With a loop before it, the arc is not looked at: the debt is below the assets with the weight 0. *)
Definition z_link : xml := LinkProps.l_link "calculationLink" "r"
  [LinkProps.l_loc "a" "t_Assets"; LinkProps.l_loc "d" "t_Debt"; FilingCalcProps.k_arc "d" "d" "1" "1"; FilingCalcProps.k_arc "a" "d" "1" "-1"].
Definition z_trees : list (str * xml) := [(u "a.xsd", FilingCalcProps.k_schema "credit"); (u "cal.xml", LinkProps.l_doc [z_link])].
Definition z_read : res filing :=
  parse_filing CtxProps.iso_date (fun _ => []) FilingCalcProps.k_number (fun _ l => l) (fun _ l => l) 100 (fun l => l) z_trees [].
Definition z_shown (f : filing) : Prop :=
  fl_errors f = [] /\ fl_nets f = [k_net] /\ map n_kids (ls_heap (fl_links f)) = [[1]; [1]] /\
  map (fun x => o_key (n_obj x)) (ls_heap (fl_links f)) = [2; 1] /\ map n_weight (ls_heap (fl_links f)) = [0; 0]%Q.
Theorem C117_loops_refuted : exists f, reads CtxProps.iso_date (fun _ => []) FilingCalcProps.k_number z_trees [] f /\ z_shown f.
Proof.
  destruct (read_case z_read z_shown) as (f & E & S); [vm_compute; repeat split|]. exists f. split; [|exact S].
  revert E. unfold z_read, reads. generalize z_trees. intros trees E. exists (fun _ l => l), (fun _ l => l), 100, (fun l => l).
  split; [split; intros n l; apply Permutation_refl|]. split; [intros l; apply Permutation_refl|exact E].
Qed.

Print Assumptions C117_written.
Print Assumptions C117_children_partial.
Print Assumptions C116_arcs_partial.
Print Assumptions C117_loops_refuted.
