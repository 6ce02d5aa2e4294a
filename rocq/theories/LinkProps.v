(** C72-C78: the links of a filing. *)
From Verif Require Import Base Regex QNameModel ErrBase ErrTable ErrModel CtxModel InlineModel NetModel NetSpec NetProofs NetLinkProofs NetProps
  LangModel LangSpec LangProofs LangProps DtsProofs LinkModel LinkSpec LinkProofs LinkLoopProofs LinkOrderProofs LinkNetProofs LinkDocProofs LinkSameProofs LinkLabelProofs
  LinkReportProofs LinkOpenProofs.
Local Open Scope nat_scope.

(** ** An example *)

Definition lscope : scope := [(Some (u "xlink"), XLINK)].
Definition ltag (name : string) : option str := Some (clark LINKBASE (u name)).
Definition lattr (kv : string * string) : str * str := (clark XLINK (u (fst kv)), u (snd kv)).
Definition lelem (name : string) (attrs : list (string * string)) (text : option string) (kids : list xml) : xml :=
  Xml (ltag name) (map lattr attrs) lscope (option_map u text) kids.
Definition en (x : xml) : xml := Xml (x_tag x) ((clark (u "http://www.w3.org/XML/1998/namespace") (u "lang"), u "en") :: x_attrs x) (x_scope x) (x_text x) (x_kids x).
Definition l_doc (links : list xml) : xml := lelem "linkbase" [] None links.
Definition l_link (name role : string) (kids : list xml) : xml := lelem name [("type", "extended"); ("role", role)]%string None kids.
Definition l_loc (label id : string) : xml := lelem "loc" [("type", "locator"); ("label", label); ("href", String.append "a.xsd#" id)]%string None [].
Definition l_arc (role from to : string) : xml := lelem "arc" [("type", "arc"); ("arcrole", role); ("from", from); ("to", to)]%string None [].
Definition l_res (label role text : string) : xml := lelem "label" [("type", "resource"); ("label", label); ("role", role)]%string (Some text) [].

(** The report elements of the example are "cash" and "debt"; "f1" is a fact. *)
Definition l_find (s : str) : option found :=
  if str_eqb s (u "cash") then Some (FConcept 0) else if str_eqb s (u "debt") then Some (FConcept 1)
  else if str_eqb s (u "f1") then Some (FFact 0) else None.
Definition l_parse (eo : list edge -> list edge) (docs : list xml) :=
  parse_networks (fun _ => u "<Element p at 0x7f>") (fun _ => 1%Q) l_find (fun _ => eo) (fun _ l => l) 100 (fun l => l) docs [].
Definition l_labels (eo : list edge -> list edge) (docs : list xml) (e : nat) : res (list str) :=
  do! r <- l_parse eo docs ; Ok (map l_text (labels_of (snd r) e)).
Definition l_codes (docs : list xml) : res (list str) := do! r <- l_parse (fun l => l) docs ; Ok (map (@er_code xml) (ls_errors (snd r))).
Definition do_res {A B} (r : res A) (f : A -> B) : res B := do! a <- r ; Ok (f a).
Definition same {A} (l : list A) := l.

Definition l_labels_doc : xml :=
  l_doc [l_link "labelLink" "r" [l_loc "c" "cash"; en (l_res "x" "std" "Cash"); en (l_res "x" "terse" "Money"); l_arc "cl" "c" "x"];
         l_link "labelLink" "r2" [l_loc "c" "cash"; l_loc "d" "debt"; en (l_res "x" "std" "Asset"); en (l_res "y" "std" "Debt"); l_arc "cl" "c" "x"; l_arc "cl" "d" "y"]].

(** The usual binding can be decided. *)
Lemma usual_inside docs : forallb (fun d => forallb (fun p => match dict_get key_eqb (x_scope (fst p)) (Some (u "xlink")) with Some s => str_eqb s XLINK | None => false end) (inner [] d)) docs = true ->
  forall d x around, In d docs -> inside d [] x around -> usual x.
Proof.
  intros H d x around Hd Hin. apply inner_inside in Hin. pose proof (proj1 (forallb_forall _ _) H d Hd) as Hf. cbv beta in Hf. pose proof (proj1 (forallb_forall _ _) Hf (x, around) Hin) as Hx. cbn [fst] in Hx.
  unfold usual. destruct (dict_get key_eqb (x_scope x) (Some (u "xlink"))) as [s|]; [|discriminate]. f_equal. destruct (str_eqb_spec s XLINK); [assumption|discriminate].
Qed.
Lemma usual_by docs : forallb (fun d => forallb (fun p => match dict_get key_eqb (x_scope (fst p)) (Some (u "xlink")) with Some s => str_eqb s XLINK | None => false end) (inner [] d)) docs = true ->
  all_usual docs.
Proof.
  intros H link outside ((d & Hd & Hin) & _). split; [exact (usual_inside docs H d link outside Hd Hin)|].
  intros x around Hx. apply (usual_inside docs H d x around Hd). eapply inside_trans; eassumption.
Qed.
Lemma same_order : orders (fun _ => same) (fun _ => same).
Proof. split; intros n l; apply Permutation_refl. Qed.

(** ** C72 *)

Section Filing.
Variable element_str : xml -> str.
Variable number : str -> Q.
Variable find_id : str -> option found.

(** Every report element has exactly the labels that the label links of the filing give it. *)
Theorem C72_labels edge_order root_order fuel shuffle docs es ws st : orders edge_order root_order -> all_usual docs ->
  parse_networks element_str number find_id edge_order root_order fuel shuffle docs es = Ok (ws, st) ->
  forall e l, In l (labels_of st e) <->
    exists link outside, extended_link docs link outside /\ xl "role" link <> None /\ label_link link /\ gives find_id link outside e l.
Proof.
  intros Ho Hu H e l. unfold parse_networks in H. apply bind_ok in H as ([d s] & H & H'). apply bind_ok in H' as (c & _ & H'). injection H' as _ <-.
  unfold labels_of. cbn [fst snd ls_added]. assert (Hall : forall p, In p (sorted_links docs) -> usual (fst p) /\ forall x around, inside (fst p) (snd p) x around -> usual x).
  { intros [link outside] Hp. apply in_sorted_links, in_all_links in Hp. exact (link_usual docs Hu link outside Hp). }
  destruct (links_loop_gives element_str number find_id edge_order root_order Ho _ _ _ _ _ Hall H) as (added & E & G).
  cbn [ls_added app] in E. rewrite E, in_map_iff. split.
  - intros ([e' l'] & <- & Hin). apply filter_In in Hin as [Hin Ee]. cbn [fst snd] in *. apply Nat.eqb_eq in Ee. subst e'. apply G in Hin as (link & outside & Hp & K).
    apply in_sorted_links, in_all_links in Hp. eauto.
  - intros (link & outside & Hp & K). exists (e, l). split; [reflexivity|]. apply filter_In. cbn [fst]. rewrite Nat.eqb_refl. split; [|reflexivity]. apply G.
    exists link, outside. split; [apply in_sorted_links, in_all_links, Hp|exact K].
Qed.

(** A label link adds a label for every pair of a locator and a resource, and every role of the arcs
    from one to the other, once: [ts] lists positions of locators, roles, positions of resources. *)
Theorem C72_once edge_order root_order link outside role st ws st' : orders edge_order root_order -> usual link ->
  (forall x around, inside link outside x around -> usual x) ->
  let parts := elements_of link outside ["resource"; "locator"]%string in
  run_factory element_str number find_id edge_order root_order KLabel link outside role st = Ok (ws, st') ->
  exists added ts, ls_added st' = ls_added st ++ added /\ NoDup ts /\
    (forall i role j, In (i, role, j) ts <-> exists loc al res ar, nth_error parts i = Some (loc, al) /\ nth_error parts j = Some (res, ar) /\
       (element_of link outside "locator" loc al /\ exists e, locates find_id loc e) /\
       (element_of link outside "resource" res ar /\ exists l, written_label res ar l) /\ arc_leads link outside role loc res) /\
    Forall2 (fun t p => exists loc al res ar, nth_error parts (fst (fst t)) = Some (loc, al) /\ nth_error parts (snd t) = Some (res, ar) /\
       locates find_id loc (fst p) /\ written_label res ar (snd p)) ts added.
Proof.
  intros Ho Hu Hin parts. assert (E : parts = link_parts link outside) by (symmetry; exact (typed_elements link outside ["resource"; "locator"]%string Hu)).
  rewrite E. apply run_label_added; assumption.
Qed.

(** ** C73 *)

(** A label link can be read if and only if the expected attributes are there and it has the expected
    form. *)
Theorem C73_opens_partial edge_order root_order link outside role st : orders edge_order root_order -> usual link ->
  (forall x around, inside link outside x around -> usual x) -> label_link link ->
  ((exists r, parse_xml_link element_str number find_id edge_order root_order link outside role st = Ok r) <->
   complete_link link outside /\ expected_label_link find_id link outside).
Proof.
  intros Ho Hu Hin Hl. rewrite <- (label_run_iff element_str find_id number edge_order root_order Ho link outside role st Hu Hin).
  assert (exists t, x_tag link = Some t) as [t Et] by (destruct Hl as (t & Et & _); eauto). unfold parse_xml_link. rewrite Et. apply (label_link_factories link t Et) in Hl. rewrite Hl.
  cbn [run_factories]. rewrite bind_some. split; [intros (a & H & _); eauto|intros [a H]; exists a; split; [exact H|]; cbn; eauto].
Qed.

(** ** C74 *)

(** A resource is read as the label that is written. *)
Theorem C74_label_written x around es l es' : usual x -> xl "type" x = Some (u "resource") ->
  (parse_xml_resource element_str x around es = Ok (Some (RLabel l), es') <-> es' = es /\ written_label x around l).
Proof. intros Hu Ht. rewrite (resource_label element_str x around es l es' Hu). tauto. Qed.
(** A label without language is reported and dropped. *)
Theorem C74_silent x around es r es' t : usual x -> x_tag x = Some t -> part_of (u "label") t -> silent x around ->
  parse_xml_resource element_str x around es = Ok (r, es') -> r = None /\ reports es es' "MISSING_LABEL_LANGUAGE" x [].
Proof.
  intros Hu Et Hp Hs H. unfold parse_xml_resource in H. apply bind_ok in H as (t' & _ & H). destruct (negb _); [discriminate|]. apply bind_ok in H as (lab & _ & H). apply bind_ok in H as (role & _ & H).
  rewrite Et in H. apply contains_part in Hp. rewrite Hp in H. assert (El : elem_lang (x :: around) = None) by (apply elem_lang_none; exact Hs). rewrite El in H.
  apply bind_ok in H as (es1 & Hi & H). assert (r = None /\ es1 = es') as [-> ->] by (split; congruence). split; [reflexivity|]. apply insert_made in Hi as (e & He & ->). exists e. split; [exact He|reflexivity].
Qed.

(** ** C75 *)

(** The labels of a report element and the reports do not depend on the order in which sets are
    listed. *)
Theorem C75_same_labels eo1 ro1 eo2 ro2 fuel fuel' sh sh' docs es ws1 st1 ws2 st2 : orders eo1 ro1 -> orders eo2 ro2 ->
  parse_networks element_str number find_id eo1 ro1 fuel sh docs es = Ok (ws1, st1) ->
  parse_networks element_str number find_id eo2 ro2 fuel' sh' docs es = Ok (ws2, st2) ->
  ls_errors st1 = ls_errors st2 /\ forall e, Permutation (labels_of st1 e) (labels_of st2 e).
Proof. intros O1 O2. apply (filing_order element_str number find_id eo1 eo2 ro1 ro2 O1 O2). Qed.

(** Nor do the kinds and roles of the networks, and their order. *)
Theorem C75_same_networks eo1 ro1 eo2 ro2 fuel fuel' sh sh' docs es ws1 st1 ws2 st2 : orders eo1 ro1 -> orders eo2 ro2 ->
  parse_networks element_str number find_id eo1 ro1 fuel sh docs es = Ok (ws1, st1) ->
  parse_networks element_str number find_id eo2 ro2 fuel' sh' docs es = Ok (ws2, st2) ->
  map (fun w => (w_kind w, w_role w)) ws1 = map (fun w => (w_kind w, w_role w)) ws2.
Proof. intros O1 O2 R1 R2. exact (filing_shapes _ _ _ _ _ _ _ O1 O2 _ _ _ _ _ _ _ _ _ _ R1 R2). Qed.

(** The networks have the same content: logical networks show the same things in the same relations, and
    physical ones have the same nodes but for the order of siblings. *)
Theorem C75_same_content eo1 ro1 eo2 ro2 fuel fuel' sh sh' docs es ws1 st1 ws2 st2 : orders eo1 ro1 -> orders eo2 ro2 -> some_order sh -> some_order sh' ->
  parse_networks element_str number find_id eo1 ro1 fuel sh docs es = Ok (ws1, st1) ->
  parse_networks element_str number find_id eo2 ro2 fuel' sh' docs es = Ok (ws2, st2) ->
  (forall w1 w2, In w1 ws1 -> In w2 ws2 -> w_kind w1 = w_kind w2 -> w_role w1 = w_role w2 -> is_physical (w_kind w1) = false ->
     same_content (ls_heap st1) (ls_heap st2) (w_roots w1) (w_roots w2)) /\
  (forall w1, In w1 ws1 -> is_physical (w_kind w1) = true ->
     exists w2, In w2 ws2 /\ w_kind w1 = w_kind w2 /\ w_role w1 = w_role w2 /\ same_tree (ls_heap st1) (ls_heap st2) (w_roots w1) (w_roots w2)).
Proof.
  intros O1 O2 S1 S2 R1 R2. exact (two_readings element_str number find_id eo1 eo2 ro1 ro2 O1 O2 fuel fuel' sh sh' S1 S2 docs es ws1 ws2 st1 st2 R1 R2).
Qed.

(** One label for every English variant. *)
Definition one_english (labels : list label) : Prop :=
  (exists x, In x labels /\ In (l_lang x) english) /\
  forall x y, In x labels -> In y labels -> l_lang x = l_lang y -> In (l_lang x) english -> x = y.
Lemma main_label_perm l l' x y : Permutation l l' -> one_english l -> main_label l x -> main_label l' y -> x = y.
Proof.
  intros P [[z [Hz Ez]] Hone] Hx Hy.
  destruct Hx as [(v & Fv & Fx)|[Hno _]]; [|exfalso; eapply Hno; eassumption].
  destruct Hy as [(w & Fw & Fy)|[Hno _]]; [|exfalso; eapply Hno; [eapply Permutation_in; eassumption|eassumption]].
  assert (In x l /\ l_lang x = v) as [Ix Lx] by (destruct Fx as (p & q & -> & E & _); split; [apply in_elt|exact E]).
  assert (In y l' /\ l_lang y = w) as [Iy Ly] by (destruct Fy as (p & q & -> & E & _); split; [apply in_elt|exact E]).
  assert (In v english) as Iv by (destruct Fv as (p & q & E & _); rewrite E; apply in_elt).
  apply (Permutation_in _ (Permutation_sym P)) in Iy.
  assert (v = w) as Evw.
  { destruct Fv as (p & q & E & [a [Ia La]] & N), Fw as (p' & q' & E' & [b [Ib Lb]] & N'). apply (Permutation_in _ (Permutation_sym P)) in Ib.
    assert (Hp : forall p p' q q' : list str, p ++ v :: q = p' ++ w :: q' -> (In v p' \/ In w p) \/ v = w).
    { clear. induction p as [|s p IH]; intros [|s' p'] q q' E; cbn in E; injection E as E1 E2; subst; cbn; auto. destruct (IH _ _ _ E2) as [[H|H]| ->]; auto. }
    destruct (Hp p p' q q') as [[H|H]|H]; [congruence| | |exact H].
    - exfalso. apply (N' v H). exists a. split; [eapply Permutation_in; eassumption|exact La].
    - exfalso. apply (N w H). eauto. }
  apply Hone; [exact Ix|exact Iy|congruence|rewrite Lx; exact Iv].
Qed.
(** Nor does the main label, if there is an English label and no two of the same variant. *)
Theorem C75_main_label_partial eo1 ro1 eo2 ro2 fuel fuel' sh sh' docs es ws1 st1 ws2 st2 : orders eo1 ro1 -> orders eo2 ro2 ->
  parse_networks element_str number find_id eo1 ro1 fuel sh docs es = Ok (ws1, st1) ->
  parse_networks element_str number find_id eo2 ro2 fuel' sh' docs es = Ok (ws2, st2) ->
  forall e, one_english (labels_of st1 e) -> select_main_label (labels_of st1 e) = select_main_label (labels_of st2 e).
Proof.
  intros O1 O2 R1 R2 e H. destruct (C75_same_labels _ _ _ _ _ _ _ _ _ _ _ _ _ _ O1 O2 R1 R2) as [_ P]. specialize (P e).
  pose proof (C30_main_label (labels_of st1 e)) as M1. pose proof (C30_main_label (labels_of st2 e)) as M2.
  destruct (labels_of st1 e) as [|a l] eqn:E1; [destruct H as [(x & [] & _) _]|]. destruct (labels_of st2 e) as [|b l'] eqn:E2; [exfalso; exact (Permutation_nil_cons (Permutation_sym P))|].
  eapply main_label_perm; [exact P|exact H|apply M1|apply M2].
Qed.

(** ** C76 *)

Section Networks.
Variable edge_order : nat -> list edge -> list edge.
Variable root_order : nat -> list nat -> list nat.
Hypothesis Horders : orders edge_order root_order.
Variable fuel : nat.
Variable shuffle : list nat -> list nat.
Hypothesis Hshuffle : some_order shuffle.
Variable docs : list xml.
Hypothesis Husual : all_usual docs.
Variable es : repo xml.
Variable ws : list net.
Variable st : lstate.
Hypothesis Hparse : parse_networks element_str number find_id edge_order root_order fuel shuffle docs es = Ok (ws, st).

(** There is one network for each kind and role, except that the physical networks are kept apart. *)
Theorem C76_one_network : NoDup (map (fun w => (w_kind w, w_role w)) (filter logical ws)).
Proof. eapply filing_once; eassumption. Qed.
(** In it, one report element is below another only if a link of the role and kind puts it there. *)
Theorem C76_children_written R k o o' : is_physical k = false ->
  (exists w, In w ws /\ w_kind w = k /\ w_role w = R /\ relates (ls_heap st) (w_roots w) o o') ->
  exists link outside, extended_link docs link outside /\ xl "role" link = Some R /\ link_kind link k /\ puts find_id link outside o o'.
Proof. eapply filing_relates; eassumption. Qed.
(** And everything that links of the role and kind say is there, wherever the links are. *)
Theorem C76_children_kept_partial R k o o' link outside : is_physical k = false -> extended_link docs link outside -> xl "role" link = Some R -> link_kind link k ->
  no_cycle link outside -> anchored find_id link outside -> puts find_id link outside o o' ->
  exists w, In w ws /\ w_kind w = k /\ w_role w = R /\ relates (ls_heap st) (w_roots w) o o'.
Proof. eapply relates_filing; eassumption. Qed.
Theorem C76_shown_written R k o : is_physical k = false ->
  (exists w, In w ws /\ w_kind w = k /\ w_role w = R /\ shows (ls_heap st) (w_roots w) o) ->
  exists link outside, extended_link docs link outside /\ xl "role" link = Some R /\ link_kind link k /\ mentions find_id link outside o.
Proof. eapply filing_shows; eassumption. Qed.
Theorem C76_shown_kept_partial R k o link outside : is_physical k = false -> extended_link docs link outside -> xl "role" link = Some R -> link_kind link k ->
  no_cycle link outside -> anchored find_id link outside -> mentions find_id link outside o ->
  exists w, In w ws /\ w_kind w = k /\ w_role w = R /\ shows (ls_heap st) (w_roots w) o.
Proof. eapply shows_filing; eassumption. Qed.

(** Exactly what links say about locators that their arcs come to, starting from those no arc leads to. *)
Theorem C76_children R k o o' : is_physical k = false ->
  ((exists w, In w ws /\ w_kind w = k /\ w_role w = R /\ relates (ls_heap st) (w_roots w) o o') <->
   exists link outside, extended_link docs link outside /\ xl "role" link = Some R /\ link_kind link k /\ puts_there find_id link outside o o').
Proof. eapply filing_relates_iff; eassumption. Qed.
Theorem C76_shown R k o : is_physical k = false ->
  ((exists w, In w ws /\ w_kind w = k /\ w_role w = R /\ shows (ls_heap st) (w_roots w) o) <->
   exists link outside, extended_link docs link outside /\ xl "role" link = Some R /\ link_kind link k /\ mentions_there find_id link outside o).
Proof. eapply filing_shows_iff; eassumption. Qed.

(** A physical network is one that [parse_link] (C19-C21) makes of a link of its role and kind; its
    nodes are moved, but otherwise as they were made. *)
Definition made_of (link : xml) (outside : list xml) (w : net) : Prop :=
  exists es0 es1 es2 arcs entries eo ro h nets dups base roots,
    link_arcs number [] (typed_below [u "arc"] link outside) es0 = Ok (arcs, es1) /\
    link_entries element_str find_id 0 (typed_below [u "resource"; u "locator"] link outside) es1 = Ok (entries, es2) /\
    some_order eo /\ some_order ro /\ parse_link (w_kind w) eo ro arcs (map loc_of entries) = Ok (h, nets, dups) /\
    In roots nets /\ w_roots w = map (Nat.add base) roots /\
    forall n, n < length h -> nth_error (ls_heap st) (base + n) = option_map (shift_node base) (nth_error h n).
Lemma made_of_run rs d r w : based 0 rs -> (forall r, In r rs -> run_ok element_str number find_id r) -> NoDup (dict_keys d) ->
  (forall R, nets_in d R = flat_map nets_of (filter (fun r => str_eqb (r_role r) R) rs)) ->
  combine_roles fuel shuffle d (heap_of rs) = Ok (ws, ls_heap st) ->
  In r rs -> is_physical (r_kind r) = true -> In w (nets_of r) -> made_of (r_link r) (r_out r) w.
Proof.
  intros B O N G C Hr Hp Hw. destruct (O r Hr) as (es0 & es1 & es2 & eo & ro & dups & P1 & P2 & A1 & A2 & A3).
  unfold nets_of in Hw. apply in_map_iff in Hw as (net & <- & Hnet). cbn [w_kind w_roots].
  exists es0, es1, es2, (r_arcs r), (r_entries r), eo, ro, (r_heap r), (r_nets r), dups, (r_base r), net. repeat (split; [assumption|]). split; [reflexivity|].
  intros n Hn. exact (physical_nodes_kept element_str number find_id rs B O fuel shuffle Hshuffle d N G ws (ls_heap st) C r n Hr Hp Hn).
Qed.
Theorem C76_physical_written w : In w ws -> is_physical (w_kind w) = true ->
  exists link outside, extended_link docs link outside /\ xl "role" link = Some (w_role w) /\ link_kind link (w_kind w) /\ made_of link outside w.
Proof.
  intros Hw Hp. destruct (filing_runs element_str number find_id edge_order root_order Horders fuel shuffle docs Husual es ws st Hparse) as (rs & d & O & B & N & G & C & _ & K).
  destruct (proj1 (combined_physical element_str number find_id rs B O fuel shuffle Hshuffle d N G ws (ls_heap st) C w Hp) Hw) as (r & Hr & Hin).
  destruct (proj1 (K (r_link r) (r_out r) (r_role r) (r_kind r)) (ex_intro _ r (conj Hr eq_refl))) as (A1 & A2 & A3).
  assert (w_kind w = r_kind r /\ w_role w = r_role r) as [Ek Er] by (unfold nets_of in Hin; apply in_map_iff in Hin as (net & <- & _); auto).
  exists (r_link r), (r_out r). rewrite Ek, Er. split; [exact A1|]. split; [exact A2|]. split; [exact A3|]. eapply made_of_run; try eassumption. congruence.
Qed.
Theorem C76_physical_kept link outside R k : is_physical k = true -> extended_link docs link outside -> xl "role" link = Some R -> link_kind link k ->
  exists es0 es1 es2 arcs entries eo ro h nets dups base,
    link_arcs number [] (typed_below [u "arc"] link outside) es0 = Ok (arcs, es1) /\
    link_entries element_str find_id 0 (typed_below [u "resource"; u "locator"] link outside) es1 = Ok (entries, es2) /\
    some_order eo /\ some_order ro /\ parse_link k eo ro arcs (map loc_of entries) = Ok (h, nets, dups) /\
    (forall roots, In roots nets -> In (Net k R (map (Nat.add base) roots)) ws) /\
    forall n, n < length h -> nth_error (ls_heap st) (base + n) = option_map (shift_node base) (nth_error h n).
Proof.
  intros Hp Hx HR Hk. destruct (filing_runs element_str number find_id edge_order root_order Horders fuel shuffle docs Husual es ws st Hparse) as (rs & d & O & B & N & G & C & _ & K).
  destruct (proj2 (K link outside R k) (conj Hx (conj HR Hk))) as (r & Hr & E). unfold r_key in E. injection E as <- <- <- <-.
  destruct (O r Hr) as (es0 & es1 & es2 & eo & ro & dups & P1 & P2 & A1 & A2 & A3).
  exists es0, es1, es2, (r_arcs r), (r_entries r), eo, ro, (r_heap r), (r_nets r), dups, (r_base r). repeat (split; [assumption|]). split.
  - intros roots Hroots. apply (combined_physical element_str number find_id rs B O fuel shuffle Hshuffle d N G ws (ls_heap st) C); [exact Hp|].
    exists r. split; [exact Hr|]. unfold nets_of. apply in_map_iff. eauto.
  - intros n Hn. exact (physical_nodes_kept element_str number find_id rs B O fuel shuffle Hshuffle d N G ws (ls_heap st) C r n Hr Hp Hn).
Qed.
End Networks.

(** ** C77 *)

(** A link without role is reported and has no other effect. *)
Theorem C77_no_role edge_order root_order link outside d st : usual link -> xl "role" link = None ->
  exists es, one_link element_str number find_id edge_order root_order (link, outside) d st = Ok (d, with_errors st es) /\
    reports (ls_errors st) es "MISSING_LINK_ROLE" link [].
Proof.
  intros Hu Hr. unfold one_link. cbn [fst snd]. rewrite (opt_role link Hu), Hr. cbn [bind]. destruct (can_role (ls_errors st) link) as [es E]. exists es. rewrite E. split; [reflexivity|].
  apply insert_made in E as (e & He & ->). exists e. split; [exact He|reflexivity].
Qed.
(** A link of unknown kind is reported; its role is known, but has no networks from it. *)
Theorem C77_no_kind edge_order root_order link outside role t st : x_tag link = Some t -> (forall k, ~ link_kind link k) ->
  exists es, parse_xml_link element_str number find_id edge_order root_order link outside role st = Ok ([], with_errors st es) /\
    reports (ls_errors st) es "UNSUPPORTED_LINK_TYPE" link [(u "type", t)].
Proof.
  intros Et Hk. unfold parse_xml_link. rewrite Et. destruct (factories t) as [|k ks] eqn:Ef; [|exfalso; apply (Hk k), (link_kind_factories link t k Et); rewrite Ef; left; reflexivity].
  destruct (can_type (ls_errors st) link t) as [es E]. exists es. rewrite E. split; [reflexivity|]. apply insert_made in E as (e & He & ->). exists e. split; [exact He|reflexivity].
Qed.

(** ** C78 *)

(** All that is reported when links are read. *)
Theorem C78_reports_partial edge_order root_order fuel shuffle docs es ws st : all_usual docs ->
  parse_networks element_str number find_id edge_order root_order fuel shuffle docs es = Ok (ws, st) ->
  exists l l1 l2 rss new, (forall x around, In (x, around) l <-> extended_link docs x around) /\ l = all_links docs /\ in_two_parts looks_standard l l1 l2 /\
    Forall2 (fun p => link_reported find_id (fst p) (snd p)) (l1 ++ l2) rss /\
    ls_errors st = es ++ new /\ Forall2 made (concat rss) new.
Proof. apply filing_reports. Qed.
End Filing.

(** ** Examples *)

Example C72_example : all_usual [l_labels_doc] /\ l_labels same [l_labels_doc] 0 = Ok [u "Cash"; u "Money"; u "Asset"] /\ l_labels same [l_labels_doc] 1 = Ok [u "Debt"].
Proof. split; [apply usual_by; vm_compute; reflexivity|]. split; vm_compute; reflexivity. Qed.

(** A label to which no arc leads makes it impossible to open the filing. *)
Theorem C73_stray_refuted :
  l_labels same [l_doc [l_link "labelLink" "r" [l_loc "c" "cash"; en (l_res "x" "std" "Cash"); l_arc "cl" "c" "x"; en (l_res "z" "std" "Unused")]]] 0 = Raise ValueError.
Proof. vm_compute. reflexivity. Qed.
(** So does a label without role, which is allowed and means the standard label. *)
Theorem C73_role_refuted :
  l_labels same [l_doc [l_link "labelLink" "r" [l_loc "c" "cash"; en (lelem "label" [("type", "resource"); ("label", "x")]%string (Some "Cash"%string) []); l_arc "cl" "c" "x"]]] 0 = Raise ValueError.
Proof. vm_compute. reflexivity. Qed.
(** So does an arc between report elements. *)
Theorem C73_locator_refuted :
  l_labels same [l_doc [l_link "labelLink" "r" [l_loc "c" "cash"; l_loc "d" "debt"; l_arc "cl" "c" "d"]]] 0 = Raise ValueError.
Proof. vm_compute. reflexivity. Qed.
(** The links of the example have the expected form. *)
Example C73_example : let link := l_link "labelLink" "r" [l_loc "c" "cash"; en (l_res "x" "std" "Cash"); l_arc "cl" "c" "x"] in
  complete_link link [] /\ expected_label_link l_find link [].
Proof.
  intros link. assert (U : all_usual [l_doc [link]]) by (apply usual_by; vm_compute; reflexivity).
  apply (C73_opens_partial (fun _ => []) (fun _ => 1%Q) l_find (fun _ => same) (fun _ => same) link [] (u "r") (LState [] [] [] 0) same_order).
  - vm_compute. reflexivity.
  - intros x around Hx. apply inner_inside in Hx. revert Hx. generalize (usual_inside [link] eq_refl). intros V Hx. apply inner_inside in Hx. exact (V link x around (or_introl eq_refl) Hx).
  - exists (clark LINKBASE (u "labelLink")). split; [reflexivity|]. rewrite <- !contains_part. vm_compute. intuition discriminate.
  - eexists. vm_compute. reflexivity.
Qed.

(** A label with markup is cut where the markup starts. *)
Definition marked : xml := en (lelem "label" [("type", "resource"); ("label", "x"); ("role", "std")]%string (Some "Cash "%string) [lelem "b" [] (Some "and"%string) []]).
Theorem C74_markup_refuted : l_labels same [l_doc [l_link "labelLink" "r" [l_loc "c" "cash"; marked; l_arc "cl" "c" "x"]]] 0 = Ok [u "Cash "].
Proof. vm_compute. reflexivity. Qed.
(** A footnote that starts with markup shows where Python keeps the element. *)
Theorem C74_footnote_refuted :
  parse_xml_resource (fun _ => u "<Element p at 0x7f>")
    (en (lelem "footnote" [("type", "resource"); ("label", "x"); ("role", "std")]%string None [lelem "p" [] (Some "see note 3"%string) []])) [] [] =
  Ok (Some (RFootnote (u "<Element p at 0x7f>") (u "x") (u "en") (u "std")), []).
Proof. vm_compute. reflexivity. Qed.
(** Of two parts of a reference with the same name only the last is kept. *)
Theorem C74_reference_refuted :
  parse_xml_resource (fun _ => [])
    (lelem "reference" [("type", "resource"); ("label", "x"); ("role", "std")]%string None
       [lelem "Paragraph" [] (Some "7"%string) []; lelem "Name" [] (Some "IAS"%string) []; lelem "Paragraph" [] (Some "8"%string) []]) [] [] =
  Ok (Some (RReference [(u "Paragraph", Some (u "8")); (u "Name", Some (u "IAS"))] (u "x") (u "std")), []).
Proof. vm_compute. reflexivity. Qed.
Example C74_example : let x := en (l_res "x" "std" "Cash") in
  parse_xml_resource (fun _ => []) x [] [] = Ok (Some (RLabel (Label (u "Cash") (u "x") (u "en") (u "std"))), []) /\
  silent (l_res "x" "std" "Cash") [] /\ (exists es, parse_xml_resource (fun _ => []) (l_res "x" "std" "Cash") [] [] = Ok (None, es) /\ length es = 1).
Proof.
  split; [vm_compute; reflexivity|]. split; [intros z [<-|[]]; vm_compute; reflexivity|]. eexists. split; [vm_compute; reflexivity|reflexivity].
Qed.

(** The main label of a report element with a standard and a terse label depends on the order in
    which a set is listed. *)
Definition two_labels : xml :=
  l_doc [l_link "labelLink" "r" [l_loc "c" "cash"; en (l_res "x" "std" "Cash and cash equivalents"); en (l_res "y" "terse" "Cash"); l_arc "cl" "c" "x"; l_arc "cl" "c" "y"]].
Definition l_main (eo : list edge -> list edge) (docs : list xml) (e : nat) : res str :=
  do! r <- l_parse eo docs ; Ok (l_text (select_main_label (labels_of (snd r) e))).
Theorem C75_main_label_refuted :
  l_main same [two_labels] 0 = Ok (u "Cash and cash equivalents") /\ l_main (@rev edge) [two_labels] 0 = Ok (u "Cash").
Proof. split; vm_compute; reflexivity. Qed.
Example C75_example : orders (fun _ => @rev edge) (fun _ => same) /\ l_main same [l_labels_doc] 1 = Ok (u "Debt") /\ l_main (@rev edge) [l_labels_doc] 1 = Ok (u "Debt").
Proof. split; [split; intros n l; [apply Permutation_rev|apply Permutation_refl]|]. split; vm_compute; reflexivity. Qed.

(** Two presentation links of one role in two documents, and one of another role. *)
Definition l_pres1 : xml := l_doc [l_link "presentationLink" "r" [l_loc "c" "cash"; l_loc "d" "debt"; l_arc "pc" "c" "d"]].
Definition l_pres2 : xml := l_doc [l_link "presentationLink" "r" [l_loc "d" "debt"]; l_link "presentationLink" "s" [l_loc "d" "debt"]].
Definition l_trees (docs : list xml) : res (list (str * list (option nat) * list (list (option nat)))) :=
  do! r <- l_parse same docs ;
  Ok (map (fun w => (w_role w, map (object (ls_heap (snd r))) (w_roots w),
                     map (fun n => map (object (ls_heap (snd r))) (get_children (ls_heap (snd r)) n)) (w_roots w))) (fst r)).
Example C76_example : l_trees [l_pres1; l_pres2] = Ok [(u "r", [Some 1; Some 0], [[]; [Some 1]]); (u "s", [Some 1], [[]])].
Proof. vm_compute. reflexivity. Qed.

(** A link whose arcs run in a circle, or start at nothing, has no network. *)
Definition l_circle : xml := l_link "presentationLink" "r" [l_loc "c" "cash"; l_loc "d" "debt"; l_arc "pc" "c" "d"; l_arc "pc" "d" "c"].
Definition l_orphan : xml := l_link "presentationLink" "r" [l_loc "d" "debt"; l_arc "pc" "c" "d"].
Theorem C76_cycle_refuted : puts l_find l_circle [l_doc [l_circle]] 0 1 /\ l_trees [l_doc [l_circle]] = Ok [].
Proof.
  split; [|vm_compute; reflexivity].
  exists (l_arc "pc" "c" "d"), [l_circle; l_doc [l_circle]], (l_loc "c" "cash"), [l_circle; l_doc [l_circle]], (l_loc "d" "debt"), [l_circle; l_doc [l_circle]].
  split; [split; [apply inside_kid; cbn; auto|split; [discriminate|vm_compute; reflexivity]]|].
  split; [split; [apply inside_kid; cbn; auto|split; [discriminate|vm_compute; reflexivity]]|].
  split; [split; [apply inside_kid; cbn; auto|split; [discriminate|vm_compute; reflexivity]]|].
  split; [vm_compute; reflexivity|]. split; [vm_compute; reflexivity|].
  split; eexists; (split; [vm_compute; reflexivity|left; vm_compute; reflexivity]).
Qed.
Theorem C76_orphan_refuted : mentions l_find l_orphan [l_doc [l_orphan]] 1 /\ l_trees [l_doc [l_orphan]] = Ok [].
Proof.
  split; [|vm_compute; reflexivity]. exists (l_loc "d" "debt"), [l_orphan; l_doc [l_orphan]].
  split; [split; [apply inside_kid; cbn; auto|split; [discriminate|vm_compute; reflexivity]]|].
  eexists. split; [vm_compute; reflexivity|left; vm_compute; reflexivity].
Qed.

(** A link with a role under another prefix than xlink counts as one without role. *)
Theorem C77_prefix_refuted : let link := l_link "presentationLink" "r" [] in
  let other := Xml (x_tag link) (x_attrs link) [(Some (u "xl"), XLINK)] (x_text link) (x_kids link) in
  xl "role" other = Some (u "r") /\ do_res (l_parse same [l_doc [other]]) (fun r => (length (fst r), map (@er_code xml) (ls_errors (snd r)))) = Ok (0, [u "402"]).
Proof. split; vm_compute; reflexivity. Qed.
Example C77_example : l_codes [l_doc [lelem "presentationLink" [("type", "extended")]%string None []; l_link "genericLink" "r" []]] = Ok [u "402"; u "400"].
Proof. vm_compute. reflexivity. Qed.

(** What is wrong in a definition link is reported twice. *)
Theorem C78_twice_refuted : l_codes [l_doc [l_link "definitionLink" "r" [l_loc "c" "lost"]]] = Ok [u "300"; u "300"] /\
  l_codes [l_doc [l_link "presentationLink" "r" [l_loc "c" "lost"]]] = Ok [u "300"].
Proof. split; vm_compute; reflexivity. Qed.
Example C78_example : all_usual [l_doc [l_link "presentationLink" "r" [l_loc "c" "cash"; l_loc "d" "lost"; l_arc "pc" "c" "d"; l_arc "pc" "c" "d"]]] /\
  l_codes [l_doc [l_link "presentationLink" "r" [l_loc "c" "cash"; l_loc "d" "lost"; l_arc "pc" "c" "d"; l_arc "pc" "c" "d"]]] = Ok [u "401"; u "300"].
Proof. split; [apply usual_by|]; vm_compute; reflexivity. Qed.

Print Assumptions C72_labels.
Print Assumptions C72_once.
Print Assumptions C73_opens_partial.
Print Assumptions C74_label_written.
Print Assumptions C74_silent.
Print Assumptions C75_same_labels.
Print Assumptions C75_same_networks.
Print Assumptions C75_same_content.
Print Assumptions C75_main_label_partial.
Print Assumptions C76_one_network.
Print Assumptions C76_children_written.
Print Assumptions C76_children_kept_partial.
Print Assumptions C76_shown_written.
Print Assumptions C76_shown_kept_partial.
Print Assumptions C76_children.
Print Assumptions C76_shown.
Print Assumptions C76_cycle_refuted.
Print Assumptions C76_orphan_refuted.
Print Assumptions C76_physical_written.
Print Assumptions C76_physical_kept.
Print Assumptions C77_no_role.
Print Assumptions C77_no_kind.
Print Assumptions C78_reports_partial.
Print Assumptions C73_stray_refuted.
Print Assumptions C73_role_refuted.
Print Assumptions C73_locator_refuted.
Print Assumptions C74_markup_refuted.
Print Assumptions C74_footnote_refuted.
Print Assumptions C74_reference_refuted.
Print Assumptions C75_main_label_refuted.
Print Assumptions C77_prefix_refuted.
Print Assumptions C78_twice_refuted.
