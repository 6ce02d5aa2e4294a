(** C32 (QName texts), C33 (lookup by name), C34 (namespace normalisation). *)
From Verif Require Import Base Regex RegexProofs PyNum NetSpec QNameModel QNameSpec
  QNameProofs NsProofs.

(** * C32 *)

Lemma clark_without uri l : to_clark uri l = ch "{" :: uri ++ ch "}" :: l.
Proof. reflexivity. Qed.

(** Parsing the [prefix:local] text of a QName in a scope that declares its prefix gives the QName
    back.  (The prefix [xml] is reserved by XML and always means the XML namespace.) *)
Theorem C32_prefix_roundtrip q sc :
  plain (q_prefix q) -> plain (q_local q) -> binds sc (Some (q_prefix q)) (q_uri q) ->
  (q_prefix q = u "xml" -> q_uri q = xml_ns) ->
  qname_from_str (prefix_local_notation q) sc = Ok q.
Proof.
  intros (P1 & P2 & P3 & P4) (L1 & L2 & L3 & L4) [Hn Hin] Hx.
  assert (Hp : is_prefixed (prefix_local_notation q) (q_prefix q) (q_local q))
    by (repeat split; assumption).
  unfold qname_from_str, qname_from_colon.
  rewrite clark_re_none.
  2:{ unfold prefix_local_notation, without. rewrite !in_app_iff.
      intros [H|[[H|[]]|H]]; [contradiction|discriminate|contradiction]. }
  rewrite (colon_re_prefixed _ _ _ Hp).
  rewrite ?cap_1, ?cap_2.
  destruct (str_eqb_spec (u "xml") (q_prefix q)) as [E|Hne].
  - rewrite <- E, (dict_get_set_same _ key_eqb_spec). cbn [str_opt].
    rewrite <- (Hx (eq_sym E)), E. destruct q; reflexivity.
  - rewrite (dict_get_set_other _ key_eqb_spec) by congruence.
    rewrite (dict_get_in_nodup _ key_eqb_spec _ _ _ Hn Hin). destruct q; reflexivity.
Qed.

(** Parsing the Clark text of a QName gives its namespace and local name, in every scope; the
    prefix is the one bound to the namespace when there is only one. *)
Theorem C32_clark_roundtrip q sc :
  q_uri q <> [] -> without (ch "}") (q_uri q) -> q_local q <> [] -> without (ch "{") (q_local q) ->
  (exists p, qname_from_str (clark_notation q) sc = Ok (QName (q_uri q) p (q_local q))) /\
  (q_uri q <> xml_ns -> binds sc (Some (q_prefix q)) (q_uri q) ->
   (forall k, In (k, q_uri q) sc -> k = Some (q_prefix q)) ->
   qname_from_str (clark_notation q) sc = Ok q).
Proof.
  intros U1 U2 L1 L2. unfold qname_from_str, qname_from_clark, clark_notation.
  rewrite (clark_re_to_clark _ _ U1 U2 L1 L2).
  rewrite ?cap_1, ?cap_2.
  split; [eauto|]. intros Hx [Hn Hin] Honly.
  rewrite inverted_get by exact Hx.
  assert (Hf : forall l, In (Some (q_prefix q), q_uri q) l ->
                 (forall k, In (k, q_uri q) l -> k = Some (q_prefix q)) ->
                 exists r, filter (fun kv : option str * str => str_eqb (snd kv) (q_uri q)) l
                           = (Some (q_prefix q), q_uri q) :: r).
  { clear. induction l as [|[k v] l IH]; intros Hi Ho; [contradiction|]. cbn [filter snd].
    destruct (str_eqb_spec v (q_uri q)) as [->|Hne].
    - rewrite (Ho k) by (left; reflexivity). eauto.
    - destruct Hi as [Hi|Hi]; [congruence|]. apply IH; [exact Hi|].
      intros k' Hk'; apply Ho; right; exact Hk'. }
  destruct (Hf (rev sc)) as (r & ->).
  - rewrite <- in_rev; exact Hin.
  - intros k Hk; apply Honly. rewrite <- in_rev in Hk; exact Hk.
  - cbn. destruct q; reflexivity.
Qed.

(** Names with the same Clark text have the same namespace and local name. *)
Theorem C32_clark_injective q1 q2 :
  without (ch "}") (q_uri q1) -> without (ch "}") (q_uri q2) ->
  clark_notation q1 = clark_notation q2 -> q_uri q1 = q_uri q2 /\ q_local q1 = q_local q2.
Proof.
  unfold clark_notation. rewrite !clark_without. intros H1 H2 E. inversion E as [E'].
  exact (split_unique (ch "}") _ _ _ _ H1 H2 E').
Qed.

(** Parsing never fails: every text is some QName; an undeclared prefix gets the namespace
    "None". *)
Theorem C32_parse_total s sc :
  (exists q, qname_from_str s sc = Ok q) /\
  forall p l, plain p -> plain l -> s = p ++ u ":" ++ l -> p <> u "xml" ->
    (forall uri, ~ In (Some p, uri) sc) -> qname_from_str s sc = Ok (QName (u "None") p l).
Proof.
  split.
  - unfold qname_from_str, qname_from_clark, qname_from_colon.
    destruct (re_match clark_re s); [eauto|]. destruct (re_match colon_re s); eauto.
  - intros p l (P1 & P2 & P3 & P4) (L1 & L2 & L3 & L4) -> Hx Hno.
    assert (Hp : is_prefixed (p ++ u ":" ++ l) p l) by (repeat split; assumption).
    unfold qname_from_str, qname_from_colon.
    rewrite clark_re_none.
    2:{ unfold without. rewrite !in_app_iff.
        intros [H|[[H|[]]|H]]; [contradiction|discriminate|contradiction]. }
    rewrite (colon_re_prefixed _ _ _ Hp).
    rewrite ?cap_1, ?cap_2.
    rewrite (dict_get_set_other _ key_eqb_spec) by congruence.
    assert (dict_get key_eqb sc (Some p) = None) as ->; [|reflexivity].
    apply (dict_get_none _ key_eqb_spec). unfold dict_keys. rewrite in_map_iff.
    intros ([k v] & E & H). cbn in E; subst k. exact (Hno v H).
Qed.

(** Two different QNames can have the same Clark text: equality also compares the prefix. *)
Theorem C32_prefix_refuted :
  exists q1 q2, q1 <> q2 /\ qname_eqb q1 q2 = false /\ clark_notation q1 = clark_notation q2.
Proof.
  exists (QName (u "http://a") (u "a") (u "Assets")), (QName (u "http://a") (u "b") (u "Assets")).
  split; [intros H; discriminate H|]. split; reflexivity.
Qed.

(** A name in the default namespace does not survive: its text [:local] parses as the local name
    [":local"], and through its Clark text it gets the prefix "None". *)
Theorem C32_default_refuted :
  let sc := [(None, u "http://a")] in
  exists q, qname_from_str (u "Assets") sc = Ok q /\
    qname_from_str (prefix_local_notation q) sc <> Ok q /\
    qname_from_str (clark_notation q) sc = Ok (QName (u "http://a") (u "None") (u "Assets")).
Proof.
  eexists. split; [reflexivity|]. split; [|reflexivity].
  intros H; vm_compute in H; discriminate H.
Qed.

Example C32_example :
  let sc := [(Some (u "us-gaap"), u "http://fasb.org/us-gaap/2023"); (None, u "http://x")] in
  let q := QName (u "http://fasb.org/us-gaap/2023") (u "us-gaap") (u "Assets") in
  prefix_local_notation q = u "us-gaap:Assets" /\
  clark_notation q = u "{http://fasb.org/us-gaap/2023}Assets" /\
  qname_from_str (prefix_local_notation q) sc = Ok q /\
  qname_from_str (clark_notation q) sc = Ok q.
Proof. repeat split; vm_compute; reflexivity. Qed.

(** The hypotheses of [C32_prefix_roundtrip] hold there. *)
Example C32_example_hyps :
  plain (u "us-gaap") /\ plain (u "Assets") /\
  binds [(Some (u "us-gaap"), u "http://fasb.org/us-gaap/2023"); (None, u "http://x")]
        (Some (u "us-gaap")) (u "http://fasb.org/us-gaap/2023").
Proof.
  assert (W : forall c s, forallb (fun x => negb (N.eqb x c)) s = true -> without c s).
  { intros c s H Hin. rewrite forallb_forall in H. specialize (H c Hin).
    rewrite N.eqb_refl in H; discriminate. }
  split; [|split].
  - split; [discriminate|]. repeat split; apply W; reflexivity.
  - split; [discriminate|]. repeat split; apply W; reflexivity.
  - split; [|left; reflexivity].
    constructor; [intros [H|[]]; discriminate H|]. constructor; [intros []|constructor].
Qed.

(** * C33 *)

(** Every registered element's prefix is known to the namespace repository. *)
Definition known (n : namespaces) (els : list element) : Prop :=
  NoDup n /\ forall e, current els e -> In (q_prefix (e_name e), q_uri (e_name e)) n.

(** Looking up a report element by text returns the only registered element the text means, and
    raises [ValueError] when there is none or more than one. *)
Theorem C33_lookup ord n els s :
  some_order ord -> known n els ->
  (forall e, get_report_element_by_name ord n (registered els) s = Ok e
             <-> the_only els (fun x => means s (e_name x)) e) /\
  (get_report_element_by_name ord n (registered els) s = Raise ValueError
   <-> forall e, ~ the_only els (fun x => means s (e_name x)) e).
Proof.
  intros Ho [Hn Hk]. unfold get_report_element_by_name. rewrite get_fuzzy_any.
  destruct (fuzzy_text (fun _ => true) ord n els s Ho Hn Hk) as (out & -> & Hnd & Hi).
  cbn [bind].
  destruct (exactly_one_spec out (fun e => current els e /\ means s (e_name e)) Hnd) as [H1 H2].
  { intros x. rewrite Hi. tauto. }
  assert (H3 : forall e, exactly_one out = Ok e
                         <-> the_only els (fun x => means s (e_name x)) e).
  { intros e. rewrite H1. unfold the_only. split.
    - intros ((Hc & Hm) & Hu). split; [exact Hc|]. split; [exact Hm|]. auto.
    - intros (Hc & Hm & Hu). split; [auto|]. intros y [Hy Hmy]; auto. }
  split; [exact H3|]. split.
  - intros E e He. apply H3 in He. congruence.
  - intros Hno. destruct H2 as [E|(x & E)]; [exact E|]. exfalso. apply (Hno x), H3, E.
Qed.

(** The same for looking up a concept: only concepts count. *)
Theorem C33_concept_lookup ord n els s :
  some_order ord -> known n els ->
  (forall e, get_concept_by_name ord n (registered els) s = Ok e
             <-> the_only els (fun x => e_kind x = KConcept /\ means s (e_name x)) e) /\
  (get_concept_by_name ord n (registered els) s = Raise ValueError
   <-> forall e, ~ the_only els (fun x => e_kind x = KConcept /\ means s (e_name x)) e).
Proof.
  intros Ho [Hn Hk]. unfold get_concept_by_name.
  destruct (fuzzy_text is_concept ord n els s Ho Hn Hk) as (out & -> & Hnd & Hi).
  cbn [bind].
  assert (Hc : forall e, is_concept e = true <-> e_kind e = KConcept)
    by (intros e; unfold is_concept; destruct (e_kind e); split; congruence).
  destruct (exactly_one_spec out
    (fun e => current els e /\ e_kind e = KConcept /\ means s (e_name e)) Hnd) as [H1 H2].
  { intros x. rewrite Hi, Hc. tauto. }
  assert (H3 : forall e, exactly_one out = Ok e
     <-> the_only els (fun x => e_kind x = KConcept /\ means s (e_name x)) e).
  { intros e. rewrite H1. unfold the_only. split.
    - intros ((Hcu & Hm) & Hu). split; [exact Hcu|]. split; [exact Hm|]. auto.
    - intros (Hcu & Hm & Hu). split; [auto|]. intros y [Hy Hmy]; auto. }
  split; [exact H3|]. split.
  - intros E e He. apply H3 in He. congruence.
  - intros Hno. destruct H2 as [E|(x & E)]; [exact E|]. exfalso. apply (Hno x), H3, E.
Qed.

(** Looking up by QName object: the element last registered under exactly that name. *)
Theorem C33_by_qname els q e :
  (get_by_qname (registered els) q = Ok e <-> current els e /\ e_name e = q) /\
  (get_by_qname (registered els) q = Raise KeyError <-> forall x, current els x -> e_name x <> q).
Proof.
  unfold get_by_qname. split.
  - rewrite <- registered_get.
    destruct (dict_get qname_eqb (by_qname (registered els)) q); split; congruence.
  - destruct (dict_get qname_eqb (by_qname (registered els)) q) as [x|] eqn:E.
    + split; [discriminate|]. intros H. apply registered_get in E as [H1 H2].
      exfalso; exact (H x H1 H2).
    + split; [|reflexivity]. intros _ x Hx Hq.
      assert (H : dict_get qname_eqb (by_qname (registered els)) q = Some x)
        by (apply registered_get; auto).
      congruence.
Qed.

(** Parsing a schema registers names whose prefix is known, provided the target namespace is not
    a default namespace there. *)
Theorem C33_parsed_names_known (scopes : list scope) (sc : scope) (tns l : str) q :
  In sc scopes -> tns <> [] -> without (ch "}") tns -> l <> [] -> without (ch "{") l ->
  (exists p, In (Some p, tns) sc) -> ~ In (None, tns) sc ->
  qname_from_str (to_clark tns l) sc = Ok q ->
  q_uri q = tns /\ q_local q = l /\ In (q_prefix q, tns) (create_nsmap scopes).
Proof.
  intros Hsc T1 T2 L1 L2 (p & Hp) Hd E.
  unfold qname_from_str, qname_from_clark in E.
  rewrite (clark_re_to_clark _ _ T1 T2 L1 L2) in E.
  rewrite ?cap_1, ?cap_2 in E.
  inversion E; subst q; clear E. cbn [q_uri q_local q_prefix].
  split; [reflexivity|]. split; [reflexivity|].
  apply create_nsmap_spec.
  destruct (str_eqb_spec xml_ns tns) as [<-|Hne].
  - left. unfold inverted. rewrite (dict_get_set_same _ str_eqb_spec). reflexivity.
  - right. rewrite inverted_get by congruence. exists sc. split; [exact Hsc|].
    destruct (filter (fun kv : option str * str => str_eqb (snd kv) tns) (rev sc)) as [|[k v] r] eqn:Ef.
    + exfalso. assert (Hin : In (Some p, tns)
        (filter (fun kv : option str * str => str_eqb (snd kv) tns) (rev sc))).
      { apply filter_In. split; [rewrite <- in_rev; exact Hp|apply str_eqb_refl]. }
      rewrite Ef in Hin; exact Hin.
    + assert (Hin : In (k, v)
        (filter (fun kv : option str * str => str_eqb (snd kv) tns) (rev sc)))
        by (rewrite Ef; left; reflexivity).
      apply filter_In in Hin as [Hin Ev]. rewrite <- in_rev in Hin. cbn in Ev.
      apply str_eqb_eq in Ev; subst v. cbn [fst].
      destruct k as [k|]; [exact Hin|contradiction].
Qed.

Definition id_order (l : list str) : list str := l.

(** An element of a schema whose target namespace is its default namespace is called
    "None:Assets" and cannot be found under that name. *)
Theorem C33_default_namespace_refuted :
  let sc := [(Some (u "xs"), u "http://www.w3.org/2001/XMLSchema"); (None, u "http://a")] in
  exists q, qname_from_str (to_clark (u "http://a") (u "Assets")) sc = Ok q /\
    let e := Element q None KConcept 0 in
    prefix_local_notation q = u "None:Assets" /\
    get_report_element_by_name id_order (create_nsmap [sc]) (registered [e])
      (prefix_local_notation q) = Raise ValueError /\
    the_only [e] (fun x => means (prefix_local_notation q) (e_name x)) e.
Proof.
  eexists. split; [reflexivity|]. cbv zeta. split; [reflexivity|]. split; [reflexivity|].
  assert (W : forall c s, forallb (fun x => negb (N.eqb x c)) s = true -> without c s).
  { intros c s H Hin. rewrite forallb_forall in H. specialize (H c Hin).
    rewrite N.eqb_refl in H; discriminate. }
  split; [|split].
  - exists [], []. split; [reflexivity|]. intros x [].
  - left. split; [reflexivity|]. split; [discriminate|]. split; [discriminate|].
    split; apply W; reflexivity.
  - intros x (pre & post & E & _) _. destruct pre as [|y pre]; inversion E; [reflexivity|].
    destruct pre; discriminate.
Qed.

(** The Clark text of a registered element is not accepted, although the search parameters have a
    branch for it: the text is cut at its colon. *)
Theorem C33_clark_refuted :
  let e := Element (QName (u "http://a") (u "a") (u "Assets")) None KConcept 0 in
  known [(u "a", u "http://a")] [e] /\
  get_report_element_by_name id_order [(u "a", u "http://a")] (registered [e])
    (clark_notation (e_name e)) = Raise ValueError /\
  get_report_element_by_name id_order [(u "a", u "http://a")] (registered [e])
    (prefix_local_notation (e_name e)) = Ok e.
Proof.
  cbv zeta. split; [|split; vm_compute; reflexivity].
  split; [constructor; [intros []|constructor]|].
  intros e (pre & post & E & _). destruct pre as [|y pre]; inversion E.
  - left; reflexivity.
  - destruct pre; discriminate.
Qed.

(** Two elements with the same local name: only the prefixed text finds one. *)
Example C33_example :
  let a := Element (QName (u "http://a") (u "a") (u "Assets")) None KConcept 0 in
  let b := Element (QName (u "http://b") (u "b") (u "Assets")) None KAbstract 1 in
  let n := create_nsmap [[(Some (u "a"), u "http://a"); (Some (u "b"), u "http://b")]] in
  get_report_element_by_name id_order n (registered [a; b]) (u "Assets") = Raise ValueError /\
  get_report_element_by_name id_order n (registered [a; b]) (u "b:Assets") = Ok b /\
  get_concept_by_name id_order n (registered [a; b]) (u "Assets") = Ok a /\
  get_concept_by_name id_order n (registered [a; b]) (u "b:Assets") = Raise ValueError /\
  get_report_element_by_name id_order n (registered [a; b]) (u "Cash") = Raise ValueError /\
  known n [a; b].
Proof.
  cbv zeta. repeat (split; [vm_compute; reflexivity|]).
  split; [apply create_nsmap_spec|].
  intros e (pre & post & E & _).
  destruct pre as [|y [|z pre]]; inversion E; subst; cbn; auto.
  destruct pre; discriminate.
Qed.

(** * C34 *)

(** Normalising never raises.  No namespace has two main prefixes, no prefix two namespaces, and
    two versions of one namespace are never both present; every URI in the result was bound in
    some document. *)
Theorem C34_unique default ord maps :
  some_order ord ->
  exists st, normalize_nsmap default ord maps = Ok st /\
    (forall p1 u1 p2 u2, In (p1, u1) (nm_nsmap st) -> In (p2, u2) (nm_nsmap st) ->
       (same_family u1 u2 -> p1 = p2 /\ u1 = u2) /\ (p1 = p2 -> u1 = u2)) /\
    (forall p uri, In (p, uri) (nm_nsmap st) -> exists q, bound maps q uri).
Proof.
  intros Ho. destruct (components_facts maps) as (Hn & Hc & _).
  destruct (normalize_all_built default ord (bindings maps) (components maps) [] (Norm [] [] []))
    as (st & E & [Bk Bf Bfrom _] & _); auto using built_empty.
  exists st. split; [exact E|]. split.
  - intros p1 u1 p2 u2 H1 H2. split.
    + intros Hf. apply same_family_iff in Hf.
      assert (Heq : (p1, u1) = (p2, u2)); [|inversion Heq; auto].
      clear - Bf H1 H2 Hf. induction (nm_nsmap st) as [|x l IH]; [contradiction|].
      cbn [map] in Bf. inversion_clear Bf as [|? ? Hni Hl].
      destruct H1 as [H1|H1], H2 as [H2|H2].
      * congruence.
      * exfalso; apply Hni. subst x. apply in_map_iff. exists (p2, u2). split; [|exact H2].
        unfold fam; cbn [snd]. congruence.
      * exfalso; apply Hni. subst x. apply in_map_iff. exists (p1, u1). split; [|exact H1].
        unfold fam; cbn [snd]. congruence.
      * auto.
    + intros <-. pose proof (dict_get_in_nodup _ str_eqb_spec _ _ _ Bk H1) as G1.
      pose proof (dict_get_in_nodup _ str_eqb_spec _ _ _ Bk H2) as G2. congruence.
  - intros p uri H. apply Bfrom in H as (_ & (q & Hq) & _).
    exists q. apply bindings_bound; exact Hq.
Qed.

(** Every prefix of the documents is either a main prefix or redirected, and every redirection
    leads to a main prefix. *)
Theorem C34_prefixes default ord maps :
  some_order ord ->
  exists st, normalize_nsmap default ord maps = Ok st /\
    (forall p uri, bound maps p uri ->
       (exists x, In (p, x) (nm_nsmap st)) \/ (exists q, In (p, q) (nm_redirects st))) /\
    (forall p q, In (p, q) (nm_redirects st) -> exists x, In (q, x) (nm_nsmap st)).
Proof.
  intros Ho. destruct (components_facts maps) as (Hn & Hc & Hb).
  destruct (normalize_all_built default ord (bindings maps) (components maps) [] (Norm [] [] []))
    as (st & E & [_ _ _ Bred] & Hq & _); auto using built_empty.
  assert (Hkey : forall (d : list (str * str)) k, In k (dict_keys d) -> exists v, In (k, v) d).
  { intros d k H. unfold dict_keys in H. apply in_map_iff in H as ([a b] & <- & H). eauto. }
  exists st. split; [exact E|]. split.
  - intros p uri H. apply bindings_bound in H. destruct (Hb p uri H) as (c & H1 & H2).
    destruct (Hq p _ c H1 H2) as [G|G]; [left|right]; apply Hkey; exact G.
  - intros p q H. apply Hkey. eapply Bred; exact H.
Qed.

(** [p] is a prefix that normalisation may give to [uri]: the configured one, or without a
    configured one a prefix that some document binds to a version of [uri]. *)
Definition eligible (default : str -> option str) (maps : list scope) (p uri : str) : Prop :=
  (exists q, bound maps q uri) /\
  (default uri = Some p \/
   (default uri = None /\ exists x, bound maps p x /\ same_family x uri)).

(** Missing from the full claim: the hypothesis that no prefix is eligible for two unrelated
    namespaces.  Then every bound namespace has a main prefix (given to one of its versions), and
    nothing is renamed. *)
Theorem C34_every_namespace_partial default ord maps :
  some_order ord ->
  (forall p u1 u2, eligible default maps p u1 -> eligible default maps p u2 -> same_family u1 u2) ->
  exists st, normalize_nsmap default ord maps = Ok st /\ nm_renames st = [] /\
    (forall p uri, bound maps p uri ->
       exists q x, In (q, x) (nm_nsmap st) /\ same_family uri x /\ eligible default maps q x).
Proof.
  intros Ho Hu. destruct (components_facts maps) as (Hn & Hc & Hb).
  assert (Hel : forall p uri, may_choose default (bindings maps) p uri <-> eligible default maps p uri).
  { intros p uri. unfold may_choose, eligible. split.
    - intros ((q & Hq) & H). split; [exists q; apply bindings_bound; exact Hq|].
      destruct H as [H|(H & x & Hx & Hf)]; [left; exact H|]. right. split; [exact H|].
      exists x. split; [apply bindings_bound; exact Hx|apply same_family_iff; exact Hf].
    - intros ((q & Hq) & H). split; [exists q; apply bindings_bound; exact Hq|].
      destruct H as [H|(H & x & Hx & Hf)]; [left; exact H|]. right. split; [exact H|].
      exists x. split; [apply bindings_bound; exact Hx|apply same_family_iff; exact Hf]. }
  destruct (normalize_all_full default ord (bindings maps) (components maps) [] (Norm [] [] []))
    as (st & E & H1 & H2 & H3); auto using built_empty.
  - intros p u1 u2 A B. apply same_family_iff. apply (Hu p); apply Hel; assumption.
  - intros k [].
  - intros p uri [].
  - exists st. split; [exact E|]. split; [exact H3|]. intros p uri H.
    apply bindings_bound in H. destruct (Hb p uri H) as (c & Hc1 & _).
    destruct (H1 (url_remove_version uri)) as (q & x & Hq & Hf).
    { left. apply (in_map fst) in Hc1; exact Hc1. }
    exists q, x. split; [exact Hq|]. split; [apply same_family_iff; congruence|].
    apply Hel, H2, Hq.
Qed.

(** Three documents use one prefix for three namespaces: the second namespace is lost, because
    the alternative prefix is not checked. *)
Theorem C34_collision_refuted :
  let maps := [[(Some (u "a"), u "http://x/one")]; [(Some (u "a"), u "http://x/two")];
               [(Some (u "a"), u "http://x/three")]] in
  normalize_nsmap (fun _ => None) id_order maps
  = Ok (Norm [(u "a", u "http://x/one"); (u "a1", u "http://x/three")] []
             [(u "http://x/two", u "a1"); (u "http://x/three", u "a1")]).
Proof. vm_compute; reflexivity. Qed.

(** The main URI of a family is the one with the largest sum of its numbers ... *)
Theorem C34_main_version default ord maps :
  some_order ord ->
  exists st, normalize_nsmap default ord maps = Ok st /\
    forall p uri q x, In (p, uri) (nm_nsmap st) -> bound maps q x -> same_family x uri ->
      (url_to_value x <= url_to_value uri)%Z.
Proof.
  intros Ho. destruct (components_facts maps) as (Hn & Hc & _).
  destruct (normalize_all_built default ord (bindings maps) (components maps) [] (Norm [] [] []))
    as (st & E & [_ _ Bfrom _] & _); auto using built_empty.
  exists st. split; [exact E|]. intros p uri q x H Hx Hf.
  apply Bfrom in H as (_ & _ & H). apply (H q x).
  - apply bindings_bound; exact Hx.
  - apply same_family_iff; exact Hf.
Qed.

(** ... which is not the latest: 2019-12-31 wins over 2020-01-01. *)
Theorem C34_latest_refuted :
  let maps := [[(Some (u "a"), u "http://x/2019-12-31"); (Some (u "b"), u "http://x/2020-01-01")]] in
  normalize_nsmap (fun _ => None) id_order maps
  = Ok (Norm [(u "a", u "http://x/2019-12-31")] [(u "b", u "a")] []).
Proof. vm_compute; reflexivity. Qed.

Example C34_example :
  let maps := [[(Some (u "gaap"), u "http://gaap/2022"); (Some (u "x"), u "http://x/one")];
               [(Some (u "us-gaap"), u "http://gaap/2023"); (None, u "http://y")]] in
  normalize_nsmap (fun _ => None) id_order maps
  = Ok (Norm [(u "gaap", u "http://gaap/2023"); (u "x", u "http://x/one")]
             [(u "us-gaap", u "gaap")] []).
Proof. vm_compute; reflexivity. Qed.

(** The hypotheses of [C34_every_namespace_partial] hold there. *)
Example C34_example_hyps :
  let maps := [[(Some (u "gaap"), u "http://gaap/2022"); (Some (u "x"), u "http://x/one")];
               [(Some (u "us-gaap"), u "http://gaap/2023"); (None, u "http://y")]] in
  some_order id_order /\
  forall p u1 u2, eligible (fun _ => None) maps p u1 -> eligible (fun _ => None) maps p u2 ->
                  same_family u1 u2.
Proof.
  cbv zeta. split; [intros l; apply Permutation_refl|].
  intros p u1 u2 (_ & [H|(_ & x1 & (m1 & M1 & B1) & F1)]) (_ & [H'|(_ & x2 & (m2 & M2 & B2) & F2)]);
    try discriminate.
  apply same_family_iff in F1, F2. apply same_family_iff.
  assert (E : url_remove_version x1 = url_remove_version x2); [|congruence].
  cbn [In] in M1, M2.
  destruct M1 as [<- | [<- | []]], M2 as [<- | [<- | []]]; cbn [In] in B1, B2;
    destruct B1 as [B1|[B1|[]]], B2 as [B2|[B2|[]]]; inversion B1; inversion B2; subst;
    try discriminate; try reflexivity; try congruence.
Qed.

Print Assumptions C32_prefix_roundtrip.
Print Assumptions C32_clark_roundtrip.
Print Assumptions C32_clark_injective.
Print Assumptions C32_parse_total.
Print Assumptions C33_lookup.
Print Assumptions C33_concept_lookup.
Print Assumptions C33_by_qname.
Print Assumptions C33_parsed_names_known.
Print Assumptions C34_unique.
Print Assumptions C34_prefixes.
Print Assumptions C34_every_namespace_partial.
Print Assumptions C34_main_version.
