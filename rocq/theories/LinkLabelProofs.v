(** When the labels of a link can be read. *)
From Verif Require Import Base Regex QNameModel ErrBase ErrTable ErrModel CtxModel InlineModel NetModel NetSpec NetProofs NetLinkProofs NetCombineProofs NetProps
  LangModel DtsProofs LinkModel LinkSpec LinkProofs LinkLoopProofs LinkNetProofs.
Local Open Scope nat_scope.
Local Opaque insert create.

Definition untouched (arcs : list arc) (lab : str) : Prop := forall role, ~ touches arcs lab role.
Definition starts (arcs : list arc) (lab role : str) : Prop := touches arcs lab role /\ forall a, In a arcs -> a_role a = role -> a_to a <> lab.

Lemma root_node k eo ro arcs locs h nets dups r : parse_link k eo ro arcs locs = Ok (h, nets, dups) -> some_order ro -> In r (concat nets) -> exists x, nth_error h r = Some x.
Proof.
  intros Hp Hro Hr. apply in_concat in Hr as (net & Hnet & Hn). apply parse_link_inv in Hp as (_ & _ & Eh & roots & Er & En).
  assert (Hroots : forall m, In m roots -> m < length h).
  { intros m Hm. rewrite Er in Hm. apply (Permutation_in _ (Permutation_sym (Hro _))) in Hm. apply in_map_iff in Hm as ([i x] & Ei & Hin). cbn in Ei. subst i.
    apply filter_In in Hin as [Hin _]. apply in_combine_l in Hin. apply in_seq in Hin. rewrite Eh, add_all_length, map_length. lia. }
  assert (Hlt : r < length h).
  { rewrite En in Hnet. cbv zeta in Hnet. destruct (is_physical k).
    - apply in_map_iff in Hnet as (role & <- & _). apply filter_In in Hn as [Hn _]. auto.
    - destruct roots; [destruct Hnet|]. destruct Hnet as [<-|[]]. auto. }
  destruct (nth_error h r) eqn:E; [eauto|]. apply nth_error_None in E. lia.
Qed.

Lemma good_iff k eo ro arcs locs h nets dups la : is_physical k = true -> parse_link k eo ro arcs locs = Ok (h, nets, dups) -> some_order eo -> some_order ro ->
  ((forall r, In r (concat nets) -> good_root h la r) <->
   (forall i li o, nth_error locs i = Some li -> l_obj li = Some o ->
      untouched arcs (NetModel.l_label li) \/ (exists role, starts arcs (NetModel.l_label li) role) -> is_element (o_type o) = true) /\
   (forall i role j, leads arcs locs i role j -> exists lj o l, nth_error locs j = Some lj /\ l_obj lj = Some o /\ o_type o = OLabel /\ la (o_key o) = Some l)).
Proof.
  intros Hp H Heo Hro. split.
  - intros Hgood. split.
    + intros i li o Hi Ho Hroot. pose proof (link_has_node _ _ _ _ _ _ _ _ _ _ _ H Hi Ho) as G. rewrite Hp in G.
      assert (Hn : exists n x, made_for h locs n x li /\ n_loc x = i /\ In n (concat nets)).
      { destruct Hroot as [Hun|(role & Ht & Hno)].
        - destruct (proj1 (G (u "unknown"))) as (n & x & Hm & Hl & Hr); [right; split; [reflexivity|exact Hun]|]. exists n, x. split; [exact Hm|]. split; [exact Hl|].
          apply (proj2 (link_roots _ _ _ _ _ _ _ _ _ _ _ H Hro Hm)). intros a Ha E. apply in_relevant_physical in Ha as [Ha _]; [|exact Hp].
          apply (Hun (a_role a)). exists a. auto.
        - destruct (proj1 (G role) (or_introl Ht)) as (n & x & Hm & Hl & Hr). exists n, x. split; [exact Hm|]. split; [exact Hl|].
          apply (proj2 (link_roots _ _ _ _ _ _ _ _ _ _ _ H Hro Hm)). intros a Ha. apply in_relevant_physical in Ha as [Ha Hra]; [|exact Hp]. apply Hno; congruence. }
      destruct Hn as (n & x & Hm & _ & Hin). destruct (Hgood n Hin) as (x' & Ex & Hel & _). assert (x' = x) as -> by (destruct Hm; congruence).
      destruct (link_obj _ _ _ _ _ _ _ _ _ _ H (proj1 Hm)) as (l' & Hm' & Ho'). assert (l' = li) as -> by (destruct Hm, Hm'; congruence). congruence.
    + intros i role j (li & lj & Ei & Ej & Oi & Oj & Ha & Hno). destruct (l_obj li) as [oi|] eqn:Eoi; [|congruence]. destruct (l_obj lj) as [oj|] eqn:Eoj; [|congruence].
      destruct (C19_nodes_physical _ _ _ _ _ _ _ _ H Hp) as (G & _ & _). destruct Ha as (a & Hain & Hf & Ht & Hr).
      destruct (G i li oi role Ei Eoi) as (r & x & Mx & Lx & _ & Rx & _); [exists a; auto|].
      destruct (G j lj oj role Ej Eoj) as (c & y & My & Ly & Oy & Ry & _); [exists a; auto|].
      assert (Hroot : In r (concat nets)).
      { apply (proj2 (link_roots _ _ _ _ _ _ _ _ _ _ _ H Hro Mx)). intros b Hb. apply in_relevant_physical in Hb as [Hb Hbr]; [|exact Hp]. apply Hno; congruence. }
      assert (Hkid : In c (n_kids x)).
      { apply (proj2 (C19_physical_child_iff_arc _ _ _ _ _ _ _ _ _ _ _ H Heo Hp Mx) c y _ My). split; [congruence|]. exists a. repeat split; congruence. }
      destruct (Hgood r Hroot) as (x' & Ex' & Hel & Hk). assert (x' = x) as -> by (destruct Mx; congruence). destruct (Hk c Hkid) as (y' & l & Ey' & Ht' & Hl').
      assert (y' = y) as -> by (destruct My; congruence). exists lj, oj, l. rewrite Oy in *. auto.
  - intros [H1 H2] r Hr. destruct (root_node _ _ _ _ _ _ _ _ _ H Hro Hr) as [x Ex]. destruct (link_obj _ _ _ _ _ _ _ _ _ _ H Ex) as (l & Mx & Ox).
    pose proof (proj1 (link_roots _ _ _ _ _ _ _ _ _ _ _ H Hro Mx) Hr) as Hno. destruct (C19_nodes_physical _ _ _ _ _ _ _ _ H Hp) as (_ & Gt & _).
    exists x. split; [exact Ex|]. split.
    + apply (H1 (n_loc x) l (n_obj x) (proj2 Mx) Ox). destruct (Gt r x l Mx) as [Ht|Hun]; [right; exists (n_role x); split; [exact Ht|]|left; exact Hun].
      intros a Ha Hra. apply Hno. apply in_relevant_physical; auto.
    + intros c Hc. destruct (link_kids _ _ _ _ _ _ _ _ _ _ _ H Ex Hc) as (y & l' & My). destruct (link_obj _ _ _ _ _ _ _ _ _ _ H (proj1 My)) as (l2 & My2 & Oy).
      assert (l2 = l') as -> by (destruct My, My2; congruence). destruct (proj1 (proj2 (C19_physical_child_iff_arc _ _ _ _ _ _ _ _ _ _ _ H Heo Hp Mx) c y l' My) Hc) as [Er Ha].
      destruct (H2 (n_loc x) (n_role x) (n_loc y)) as (lj & o & lab & A & B & C & D).
      { exists l, l'. split; [apply Mx|]. split; [apply My|]. split; [congruence|]. split; [congruence|]. split; [exact Ha|].
        intros a Ha' Hra. apply Hno. apply in_relevant_physical; auto. }
      assert (lj = l') as -> by (destruct My; congruence). rewrite Oy in B. injection B as <-. exists y, lab. split; [apply My|auto].
Qed.

Section LabelOpens.
Variable element_str : xml -> str.
Variable number : str -> Q.
Variable find_id : str -> option found.
Variable edge_order : nat -> list edge -> list edge.
Variable root_order : nat -> list nat -> list nat.
Hypothesis Horders : orders edge_order root_order.
Variable link : xml.
Variable outside : list xml.
Hypothesis Hlink : usual link.
Hypothesis Hinside : forall x around, inside link outside x around -> usual x.
Variable st : lstate.
Variable es1 es2 : repo xml.
Variable arcs : list arc.
Variable entries : list entry.
Hypothesis Harcs : link_arcs number [] (typed_below [u "arc"] link outside) (ls_errors st) = Ok (arcs, es1).
Hypothesis Hentries : link_entries element_str find_id 0 (link_parts link outside) es1 = Ok (entries, es2).

Lemma run_label_ok_iff role : (exists r, run_factory element_str number find_id edge_order root_order KLabel link outside role st = Ok r) <->
  acceptable KLabel (map loc_of entries) /\
  (forall i li o, nth_error (map loc_of entries) i = Some li -> l_obj li = Some o ->
     untouched arcs (NetModel.l_label li) \/ (exists role, starts arcs (NetModel.l_label li) role) -> is_element (o_type o) = true) /\
  (forall i role j, leads arcs (map loc_of entries) i role j -> exists lj o l, nth_error (map loc_of entries) j = Some lj /\ l_obj lj = Some o /\ o_type o = OLabel /\ label_of_entry entries (o_key o) = Some l).
Proof.
  destruct Horders as [Heo Hro]. split.
  - intros [[ws st'] H]. apply run_factory_inv in H as (arcs' & es1' & entries' & es2' & h & nets & dups & added & Ha & He & Hp & Hadd & _).
    rewrite Harcs in Ha. injection Ha as <- <-. rewrite Hentries in He. injection He as <- <-. split; [apply parse_link_inv in Hp; tauto|].
    apply (good_iff KLabel _ _ _ _ _ _ _ (label_of_entry entries) eq_refl Hp (Heo _) (Hro _)). apply nets_labels_ok in Hadd. tauto.
  - intros (Hacc & Hg). destruct (proj2 (parse_link_ok_iff KLabel (edge_order (ls_runs st)) (root_order (ls_runs st)) arcs (map loc_of entries)) Hacc) as [[[h nets] dups] Hp].
    pose proof (proj2 (good_iff KLabel _ _ _ _ _ _ _ (label_of_entry entries) eq_refl Hp (Heo _) (Hro _)) Hg) as Hgood. clear Hg. rename Hgood into Hg. destruct (nets_labels_good _ _ _ Hg) as [added Hadd].
    unfold run_factory. fold (link_parts link outside). rewrite Harcs. cbn [bind fst snd]. rewrite Hentries. cbn [bind fst snd]. rewrite Hp. cbn [bind].
    change (do! ls <- map_res (labels_below h (label_of_entry entries)) nets; Ok (concat ls)) with (nets_labels h (label_of_entry entries) nets). rewrite Hadd. cbn [bind]. eauto.
Qed.

(** What an entry can be. *)
Lemma entry_object j x around lab ob r : nth_error (link_parts link outside) j = Some (x, around) -> nth_error entries j = Some (lab, Some (ob, r)) ->
  (element_of link outside "locator" x around /\ exists href f, xl "href" x = Some href /\ find_id (fragment href) = Some f /\ ob = obj_of_found f) \/
  (element_of link outside "resource" x around /\ exists t, x_tag x = Some t /\
     ((part_of (u "label") t /\ o_type ob = OLabel /\ exists l, written_label x around l /\ label_of_entry entries (o_key ob) = Some l) \/
      (~ part_of (u "label") t /\ part_of (u "footnote") t /\ ~ silent x around /\ o_type ob = OFootnote) \/
      (~ part_of (u "label") t /\ ~ part_of (u "footnote") t /\ part_of (u "reference") t /\ o_type ob = OReference))).
Proof.
  intros Hp He. destruct (part_entry element_str find_id _ _ Hlink Hinside _ _ _ Hentries _ _ _ Hp) as (lab' & o' & e1 & e2 & He' & _ & Ho).
  rewrite He in He'. injection He' as <- <-. destruct (part_type _ _ Hlink Hinside _ _ _ Hp) as [Hu [Ht|Ht]].
  - left. split; [exact Ht|]. destruct (link_object_locator _ _ _ _ _ _ _ _ Hu (proj2 (proj2 Ht)) Ho) as (href & Hh & E).
    destruct (find_id (fragment href)) as [f|] eqn:Ef; [|discriminate]. cbn in E. exists href, f. split; [exact Hh|]. split; [exact Ef|]. congruence.
  - right. split; [exact Ht|]. destruct (link_object_resource _ _ _ _ _ _ _ _ Hu (proj2 (proj2 Ht)) Ho) as (r' & Hr & E).
    destruct r' as [r'|]; [|discriminate]. cbn in E. assert (Eob : ob = Obj j (resource_type r')) by congruence. assert (Er : r = Some r') by congruence. subst ob r. clear E.
    pose proof Hr as Hr0. unfold parse_xml_resource in Hr. apply bind_ok in Hr as (t & _ & Hr). destruct (negb (str_eqb t (u "resource"))); [discriminate|].
    apply bind_ok in Hr as (lab1 & _ & Hr). apply bind_ok in Hr as (role & _ & Hr). destruct (x_tag x) as [tag|]; [|discriminate]. exists tag. split; [reflexivity|].
    destruct (contains (u "label") tag) eqn:E1.
    + left. split; [apply contains_part, E1|]. destruct (elem_lang (x :: around)) as [lang|]; [|apply bind_ok in Hr as (? & _ & [=])].
      assert (Er : r' = RLabel (Label (text_or_empty x) lab1 lang role)) by congruence. rewrite Er in *. split; [reflexivity|]. eexists. split.
      * apply (resource_label element_str) in Hr0; [|exact Hu]. apply Hr0.
      * unfold label_of_entry. cbn [o_key]. rewrite He. reflexivity.
    + assert (N1 : ~ part_of (u "label") tag) by (rewrite <- contains_part; congruence). destruct (contains (u "footnote") tag) eqn:E2.
      * right. left. split; [exact N1|]. split; [apply contains_part, E2|]. destruct (elem_lang (x :: around)) as [lang|] eqn:El; [|apply bind_ok in Hr as (? & _ & [=])].
        split; [|injection Hr as <- _; reflexivity]. unfold silent. rewrite <- elem_lang_none. congruence.
      * assert (N2 : ~ part_of (u "footnote") tag) by (rewrite <- contains_part; congruence). destruct (contains (u "reference") tag) eqn:E3; [|apply bind_ok in Hr as (? & _ & [=])].
        right. right. split; [exact N1|]. split; [exact N2|]. split; [apply contains_part, E3|]. apply bind_ok in Hr as (c & _ & Hr). injection Hr as <- _. reflexivity.
Qed.
Lemma footnote_entry j x around t : nth_error (link_parts link outside) j = Some (x, around) -> element_of link outside "resource" x around -> x_tag x = Some t ->
  ~ part_of (u "label") t -> (part_of (u "reference") t /\ ~ part_of (u "footnote") t) \/ (part_of (u "footnote") t /\ ~ silent x around) ->
  exists lab ob r, nth_error entries j = Some (lab, Some (ob, r)) /\ (o_type ob = OFootnote \/ o_type ob = OReference).
Proof.
  intros Hp Hel Et N1 Hc. destruct (part_entry element_str find_id _ _ Hlink Hinside _ _ _ Hentries _ _ _ Hp) as (lab & o & e1 & e2 & He & _ & Ho).
  assert (Hu : usual x) by (apply (Hinside x around), Hel). destruct (link_object_resource _ _ _ _ _ _ _ _ Hu (proj2 (proj2 Hel)) Ho) as (r & Hr & ->).
  unfold parse_xml_resource in Hr. apply bind_ok in Hr as (ty & _ & Hr). destruct (negb (str_eqb ty (u "resource"))); [discriminate|].
  apply bind_ok in Hr as (lab1 & _ & Hr). apply bind_ok in Hr as (role & _ & Hr). rewrite Et in Hr. rewrite <- contains_part in N1. destruct (contains (u "label") t); [congruence|].
  destruct (contains (u "footnote") t) eqn:E2.
  - apply contains_part in E2. destruct Hc as [[_ Hc]|[_ Hc]]; [contradiction|]. unfold silent in Hc. rewrite <- elem_lang_none in Hc. destruct (elem_lang (x :: around)) as [lang|]; [|congruence].
    assert (E : exists r0, r = Some r0 /\ resource_type r0 = OFootnote) by (eexists; split; [injection Hr as <- _; reflexivity|reflexivity]). destruct E as (r0 & -> & E). cbn [option_map] in He.
    exists lab, (Obj j (resource_type r0)), (Some r0). split; [exact He|]. left. exact E.
  - assert (N2 : ~ part_of (u "footnote") t) by (rewrite <- contains_part; congruence). destruct Hc as [[Hc _]|[Hc _]]; [|contradiction]. apply contains_part in Hc. rewrite Hc in Hr.
    apply bind_ok in Hr as (c & _ & Hr). injection Hr as <- _. cbn [option_map] in He. eexists lab, _, _. split; [exact He|]. right. reflexivity.
Qed.

Lemma label_opens_iff role : (exists r, run_factory element_str number find_id edge_order root_order KLabel link outside role st = Ok r) <->
  expected_label_link find_id link outside.
Proof.
  rewrite run_label_ok_iff.
  assert (Hlab : forall j x around lab o, nth_error (link_parts link outside) j = Some (x, around) -> nth_error entries j = Some (lab, o) -> xl "label" x = Some lab).
  { intros j x around lab o Hp He. destruct (part_entry element_str find_id _ _ Hlink Hinside _ _ _ Hentries _ _ _ Hp) as (lab' & o' & e1 & e2 & He' & Hl & _). congruence. }
  assert (Ht : forall x lab, xl "label" x = Some lab -> forall role, touches arcs lab role <->
    exists arc aa, element_of link outside "arc" arc aa /\ (xl "from" arc = xl "label" x \/ xl "to" arc = xl "label" x) /\ xl "arcrole" arc = Some role).
  { intros x lab Hx role0. rewrite Hx. split.
    - intros (a & Ha & Hft & Hr). destruct (arc_element number _ _ Hlink Hinside _ _ _ Harcs a Ha) as (xa & aa & Hel & F & T & R). exists xa, aa. split; [exact Hel|].
      split; [destruct Hft; [left|right]; congruence|congruence].
    - intros (xa & aa & Hel & Hft & Hr). destruct (element_arc number _ _ Hlink Hinside _ _ _ Harcs xa aa Hel) as (a & Ha & F & T & R). exists a. split; [exact Ha|].
      split; [destruct Hft; [left|right]; congruence|congruence]. }
  split.
  - intros (Hacc & Hroot & Hlead).
    assert (Hok : forall j lab ob r, nth_error entries j = Some (lab, Some (ob, r)) -> accepts KLabel (o_type ob) = None).
    { intros j lab ob r He. apply (Hacc (loc_of (lab, Some (ob, r))) ob); [apply in_map; eapply nth_error_In, He|reflexivity]. }
    split; [|split; [|split]].
    + intros x around href n Hel Hh Hf. destruct (in_part _ _ Hlink "locator" x around (or_introl eq_refl) Hel) as (j & Pj).
      destruct (part_entry element_str find_id _ _ Hlink Hinside _ _ _ Hentries _ _ _ Pj) as (lab & o & e1 & e2 & He & _ & Ho).
      destruct (link_object_locator _ _ _ _ _ _ _ _ (Hinside x around (proj1 Hel)) (proj2 (proj2 Hel)) Ho) as (href' & Hh' & ->).
      assert (href' = href) as -> by congruence. rewrite Hf in He. cbn in He. apply Hok in He. discriminate.
    + intros x around t Hel Et N1. destruct (in_part _ _ Hlink "resource" x around (or_intror eq_refl) Hel) as (j & Pj).
      assert (Hno : ~ ((part_of (u "reference") t /\ ~ part_of (u "footnote") t) \/ (part_of (u "footnote") t /\ ~ silent x around))).
      { intros Hc. destruct (footnote_entry j x around t Pj Hel Et N1 Hc) as (lab & ob & r & He & Hty). apply Hok in He. destruct Hty as [E|E]; rewrite E in He; discriminate. }
      split.
      * intros Hf. unfold silent. apply elem_lang_none. destruct (elem_lang (x :: around)) as [lang|] eqn:El; [|reflexivity]. exfalso. apply Hno. right. split; [exact Hf|].
        unfold silent. rewrite <- elem_lang_none. congruence.
      * intros Hr. apply contains_part. destruct (contains (u "footnote") t) eqn:E; [reflexivity|]. exfalso. apply Hno. left. split; [exact Hr|]. rewrite <- contains_part. congruence.
    + intros x around l Hel Hw. destruct (in_part _ _ Hlink "resource" x around (or_intror eq_refl) Hel) as (j & Pj).
      destruct (part_entry element_str find_id _ _ Hlink Hinside _ _ _ Hentries _ _ _ Pj) as (lab & o & e1 & e2 & He & Hx & _).
      destruct (proj2 (entry_label element_str find_id _ _ Hlink Hinside _ _ _ Hentries j x around lab o l Pj He) (conj Hel Hw)) as (ob & r & -> & Hty & _).
      assert (Hnr : ~ (untouched arcs lab \/ exists role, starts arcs lab role)).
      { intros Hr. assert (E : is_element (o_type ob) = true); [|rewrite Hty in E; discriminate]. apply (Hroot j (loc_of (lab, Some (ob, r))) ob); [rewrite nth_error_map, He; reflexivity|reflexivity|exact Hr]. }
      assert (Hinto : forall role0, touches arcs lab role0 -> exists arc aa, element_of link outside "arc" arc aa /\ xl "to" arc = xl "label" x /\ xl "arcrole" arc = Some role0).
      { intros role0 Ht0. destruct (find (fun a => str_eqb (a_role a) role0 && str_eqb (a_to a) lab) arcs) as [a|] eqn:Ef.
        - apply find_some in Ef as [Ha E]. apply andb_prop in E as [E1 E2]. apply str_eqb_eq in E1, E2. destruct (arc_element number _ _ Hlink Hinside _ _ _ Harcs a Ha) as (xa & aa & Hela & F & T & R).
          exists xa, aa. split; [exact Hela|]. split; congruence.
        - exfalso. apply Hnr. right. exists role0. split; [exact Ht0|]. intros a Ha Hra E. pose proof (find_none _ _ Ef a Ha) as N. cbn in N. rewrite Hra, E, !str_eqb_refl in N. discriminate. }
      split.
      * destruct (find (fun a => str_eqb (a_from a) lab || str_eqb (a_to a) lab) arcs) as [a|] eqn:Ef.
        -- apply find_some in Ef as [Ha E]. destruct (Hinto (a_role a)) as (xa & aa & A & B & _); [|eauto]. exists a. split; [exact Ha|]. split; [|reflexivity].
           apply orb_prop in E as [E|E]; apply str_eqb_eq in E; auto.
        -- exfalso. apply Hnr. left. intros role0 (a & Ha & Hft & _). pose proof (find_none _ _ Ef a Ha) as N. cbn in N.
           destruct Hft as [E|E]; rewrite E, str_eqb_refl in N; [discriminate|rewrite orb_true_r in N; discriminate].
      * intros xa aa Hela Hf. destruct (element_arc number _ _ Hlink Hinside _ _ _ Harcs xa aa Hela) as (a & Ha & F & T & R). rewrite R. apply Hinto.
        exists a. split; [exact Ha|]. split; [left; congruence|reflexivity].
    + intros x around y around' role0 e e' Hel Hel' Hloc Hloc' Hal.
      destruct (in_part _ _ Hlink "locator" x around (or_introl eq_refl) Hel) as (i & Pi). destruct (in_part _ _ Hlink "locator" y around' (or_introl eq_refl) Hel') as (j & Pj).
      destruct (part_entry element_str find_id _ _ Hlink Hinside _ _ _ Hentries _ _ _ Pi) as (labi & oi & _ & _ & Ei & _). destruct (part_entry element_str find_id _ _ Hlink Hinside _ _ _ Hentries _ _ _ Pj) as (labj & oj & _ & _ & Ej & _).
      destruct (proj2 (entry_element element_str find_id _ _ Hlink Hinside _ _ _ Hentries i x around labi oi e Pi Ei) (conj Hel Hloc)) as (obi & ri & -> & _).
      destruct (proj2 (entry_element element_str find_id _ _ Hlink Hinside _ _ _ Hentries j y around' labj oj e' Pj Ej) (conj Hel' Hloc')) as (obj & rj & -> & Hty & _).
      destruct (Hlead i role0 j) as (lj & o & l & A & B & C & _).
      { apply (leads_iff element_str number find_id _ _ Hlink Hinside _ _ _ _ _ Harcs Hentries i role0 j x around y around' Pi Pj). split; [exact Hal|]. split; eauto. }
      rewrite nth_error_map, Ej in A. injection A as <-. cbn in B. injection B as <-. rewrite C in Hty. discriminate.
  - intros (H1 & H2 & H3 & H4).
    assert (Hcase : forall j lab ob r, nth_error entries j = Some (lab, Some (ob, r)) -> exists x around, nth_error (link_parts link outside) j = Some (x, around) /\ xl "label" x = Some lab /\
      ((element_of link outside "locator" x around /\ locates find_id x (o_key ob) /\ is_element (o_type ob) = true) \/
       (element_of link outside "resource" x around /\ o_type ob = OLabel /\ exists l, written_label x around l /\ label_of_entry entries (o_key ob) = Some l))).
    { intros j lab ob r He. destruct (entry_part element_str find_id _ _ _ _ _ Hentries _ _ _ He) as (x & around & Pj). exists x, around. split; [exact Pj|]. split; [eapply Hlab; eauto|].
      destruct (entry_object j x around lab ob r Pj He) as [(Hel & href & f & Hh & Hf & ->)|(Hel & t & Et & [(_ & A & B)|[(A & B & C & _)|(A & B & C & _)]])].
      - left. split; [exact Hel|]. destruct f as [n|n|n]; [| |exfalso; exact (H1 x around href n Hel Hh Hf)]; (split; [exists href; cbn; auto|reflexivity]).
      - right. auto.
      - exfalso. destruct (H2 x around t Hel Et A) as [X _]. auto.
      - exfalso. destruct (H2 x around t Hel Et A) as [_ X]. auto. }
    split; [|split].
    + intros l o Hl Ho. apply in_map_iff in Hl as ([lab o'] & <- & Hin). cbn in Ho. destruct o' as [[ob r]|]; [|discriminate]. injection Ho as <-.
      apply In_nth_error in Hin as (j & He). destruct (Hcase j lab ob r He) as (x & around & _ & _ & [(_ & _ & E)|(_ & E & _)]); [|rewrite E; reflexivity].
      destruct (o_type ob); cbn in E |- *; congruence.
    + intros i li o Hi Ho Hr. rewrite nth_error_map in Hi. destruct (nth_error entries i) as [[lab o']|] eqn:He; [|discriminate]. injection Hi as <-. cbn in Ho, Hr.
      destruct o' as [[ob r]|]; [|discriminate]. injection Ho as <-. destruct (Hcase i lab ob r He) as (x & around & Pi & Hx & [(_ & _ & E)|(Hel & E & l & Hw & _)]); [exact E|]. exfalso.
      destruct (H3 x around l Hel Hw) as [(xa & aa & Hela & Hto) Hfrom]. destruct Hr as [Hun|(role0 & (a & Ha & Hft & Hra) & Hno)].
      * destruct (element_arc number _ _ Hlink Hinside _ _ _ Harcs xa aa Hela) as (a & Ha & F & T & R). apply (Hun (a_role a)). exists a. split; [exact Ha|]. split; [right; congruence|reflexivity].
      * destruct Hft as [Hf|Hto']; [|exact (Hno a Ha Hra Hto')].
        destruct (arc_element number _ _ Hlink Hinside _ _ _ Harcs a Ha) as (xb & ab & Helb & F & T & R). destruct (Hfrom xb ab Helb) as (xc & ac & Helc & Tc & Rc); [congruence|].
        destruct (element_arc number _ _ Hlink Hinside _ _ _ Harcs xc ac Helc) as (c & Hc & F' & T' & R'). apply (Hno c Hc); congruence.
    + intros i role0 j Hl. pose proof Hl as (li & lj & Ei & Ej & Oi & Oj & Ha & Hno). rewrite nth_error_map in Ei, Ej.
      destruct (nth_error entries i) as [[labi oi]|] eqn:Eei; [|discriminate]. destruct (nth_error entries j) as [[labj oj]|] eqn:Eej; [|discriminate].
      injection Ei as <-. injection Ej as <-. cbn in Oi, Oj. destruct oi as [[obi ri]|]; [|cbn in Oi; congruence]. destruct oj as [[obj rj]|]; [|cbn in Oj; congruence].
      destruct (Hcase i labi obi ri Eei) as (x & around & Pi & Hx & Ci). destruct (Hcase j labj obj rj Eej) as (y & around' & Pj & Hy & Cj).
      apply (leads_iff element_str number find_id _ _ Hlink Hinside _ _ _ _ _ Harcs Hentries i role0 j x around y around' Pi Pj) in Hl as [Hal _].
      destruct Ci as [(Hel & Hloc & _)|(Hel & _ & l & Hw & _)].
      * destruct Cj as [(Hel' & Hloc' & _)|(_ & Hty & l' & _ & Hl')]; [exfalso; exact (H4 x around y around' role0 _ _ Hel Hel' Hloc Hloc' Hal)|].
        exists (loc_of (labj, Some (obj, rj))), obj, l'. split; [rewrite nth_error_map, Eej; reflexivity|]. split; [reflexivity|]. auto.
      * exfalso. destruct (H3 x around l Hel Hw) as [_ Hfrom]. destruct Hal as [(xa & aa & Hela & Ra & Fa & Ta) Hno'].
        destruct (Hfrom xa aa Hela Fa) as (xc & ac & Helc & Tc & Rc). apply (Hno' xc ac Helc); congruence.
Qed.
End LabelOpens.
