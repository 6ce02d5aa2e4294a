(** Properties C64-C67: the facts of inline documents. *)
From Verif Require Import Base Regex PyNum NumModel NumSpec NumProps DateModel QNameModel ErrBase ErrModel
  CtxModel CtxSpec CtxProofs CtxParseProofs CtxExactProofs CtxProps InlineModel InlineSpec InlineProofs InlineDocProofs.
Local Open Scope nat_scope.
Local Opaque u create.

(** ** Facts, once read *)

Lemma takes_ids l : forall taken, takes l taken = rev (ids_of l) ++ taken.
Proof.
  induction l as [|x l IH]; intros taken; cbn [takes]; [reflexivity|].
  rewrite IH, take_ids. unfold ids_of. cbn [flat_map]. rewrite app_nil_r, rev_app_distr, <- app_assoc.
  f_equal. destruct (attr x (u "id")); reflexivity.
Qed.

Lemma ifacts_snoc fs f : fold_left ifacts_upsert (fs ++ [f]) no_facts = ifacts_upsert (fold_left ifacts_upsert fs no_facts) f.
Proof. rewrite fold_left_app. reflexivity. Qed.

Lemma last_snoc {A} (P : A -> Prop) l a b : (P a \/ ~ P a) ->
  last_with P (l ++ [a]) b <-> P a /\ b = a \/ ~ P a /\ last_with P l b.
Proof.
  intros Hd. split.
  - intros (pre & post & E & Hb & Hp). destruct post as [|c post] using rev_ind.
    + apply app_inj_tail in E as [-> ->]. left. auto.
    + clear IHpost. change (pre ++ b :: post ++ [c]) with (pre ++ (b :: post) ++ [c]) in E.
      rewrite app_assoc in E. apply app_inj_tail in E as [-> ->]. right. split.
      * apply Hp. apply in_or_app. right. left. reflexivity.
      * exists pre, post. split; [reflexivity|]. split; [exact Hb|]. intros y Hy. apply Hp, in_or_app. auto.
  - intros [[Ha ->]|[Ha (pre & post & -> & Hb & Hp)]].
    + exists l, []. split; [reflexivity|]. split; [exact Ha|intros y []].
    + exists pre, (post ++ [a]). split; [rewrite <- app_assoc; reflexivity|]. split; [exact Hb|].
      intros y Hy. apply in_app_iff in Hy as [Hy|[<-|[]]]; [apply Hp, Hy|exact Ha].
Qed.

Lemma stored_fold fs : stored fs (fold_left ifacts_upsert fs no_facts).
Proof.
  unfold stored. induction fs as [|f fs [IH1 IH2]] using rev_ind.
  { cbn. split; [reflexivity|]. intros i g. split; [discriminate|]. intros (pre & post & E & _). destruct pre; discriminate. }
  rewrite ifacts_snoc, filter_app. cbn [filter].
  set (r := fold_left ifacts_upsert fs no_facts) in *. clearbody r. unfold ifacts_upsert.
  destruct (if_id f) as [j|] eqn:Ej; cbn [is_some negb without_id by_id].
  - rewrite app_nil_r. split; [exact IH1|]. intros i g.
    rewrite last_snoc by (destruct (str_eqb_spec j i) as [->|H]; [left; exact Ej|right; congruence]).
    destruct (str_eqb_spec j i) as [->|Hn].
    + rewrite (dict_get_set_same _ str_eqb_spec), Ej. split; [intros [= <-]; auto|intros [[_ ->]|[H _]]; [reflexivity|congruence]].
    + rewrite (dict_get_set_other _ str_eqb_spec) by exact Hn. rewrite IH2, Ej. split; [intros H; right|intros [[H _]|[_ H]]];
        [split; [congruence|exact H]|congruence|exact H].
  - split; [rewrite IH1; reflexivity|]. intros i g. rewrite IH2.
    rewrite last_snoc by (right; congruence). rewrite Ej. split; [intros H; right; split; [discriminate|exact H]|].
    intros [[H _]|[_ H]]; [discriminate|exact H].
Qed.

Lemma writes_period_det pd x p q : writes_period pd x p -> writes_period pd x q -> p = q.
Proof.
  intros [i t d H1 H2 H3 H4|i j a b da db H1 H2 H3 H4 H5 H6 H7 H8 H9 H10]
         [i' t' d' G1 G2 G3 G4|i' j' a' b' da' db' G1 G2 G3 G4 G5 G6 G7 G8 G9 G10]; congruence.
Qed.

Section Mono.
Variable contexts : list xml.
Let docs := [holding contexts].
Variables E E' P P' X X' T T' : xml -> option characteristic -> Prop.
Hypothesis HE : forall x r, occurs docs x -> E x r -> E' x r.
Hypothesis HP : forall x r, occurs docs x -> P x r -> P' x r.
Hypothesis HX : forall x r, occurs docs x -> X x r -> X' x r.
Hypothesis HT : forall x r, occurs docs x -> T x r -> T' x r.

Lemma context_mono xc l c : occurs docs xc -> context_as E P X T xc l c -> context_as E' P' X' T' xc l c.
Proof.
  intros Hxc (id & xp & xe & p & en & ds & K1 & K2 & K3 & K4 & K5 & K6 & K7).
  assert (Hxp : occurs docs xp) by (exact (occurs_find _ _ _ _ Hxc K2)).
  assert (Hxe : occurs docs xe) by (exact (occurs_find _ _ _ _ Hxc K3)).
  exists id, xp, xe, p, en, ds. split; [exact K1|]. split; [exact K2|]. split; [exact K3|].
  split; [apply HP; assumption|]. split; [apply HE; assumption|]. split; [|exact K7].
  unfold dimensions_are in *. destruct (find_kid (u "segment") xe) as [seg|] eqn:Es; [|exact K6].
  assert (Hseg : occurs docs seg) by (exact (occurs_find _ _ _ _ Hxe Es)).
  destruct K6 as (rs & Hrs & ->). exists rs. split; [|reflexivity].
  assert (Hk : forall y, In y (x_kids seg) -> occurs docs y) by (intros y Hy; exact (occurs_kid _ _ _ Hseg Hy)).
  clear K7. induction Hrs as [|y r ys rs Hy Hrs IHrs]; constructor.
  + assert (Hoy : occurs docs y) by (apply Hk; left; reflexivity).
    destruct Hy as [[Ht Hy]|(Ht & Ht' & Hy)]; [left|right]; auto.
  + apply IHrs. intros z Hz. apply Hk. right. exact Hz.
Qed.

Lemma inline_mono rep pf ev units l os :
  Forall2 (inline_outcome rep pf ev contexts units E P X T) l os ->
  Forall2 (inline_outcome rep pf ev contexts units E' P' X' T') l os.
Proof.
  intros H. induction H as [|n o l os Ho H IH]; constructor; [|exact IH].
  unfold inline_outcome in *. destruct (fst o) as [f|]; [|exact Ho].
  destruct Ho as (e & us & cid & xc & c & H1 & H2 & H3 & H4 & H5 & H6). exists e, us, cid, xc, c.
  split; [exact H1|]. split; [exact H2|]. split; [exact H3|]. split; [exact H4|]. split; [|exact H6].
  apply context_mono; [|exact H5]. apply holding_occurs. destruct H4 as (pre & post & -> & _).
  apply in_or_app. right. left. reflexivity.
Qed.
End Mono.

Lemma fact_found_cases rep pf ev ua cs n taken o : fact_found rep pf ev ua cs n taken o ->
  match fst o with
  | None => context_found rep ua cs n (snd o) None
  | Some f => exists c, context_found rep ua cs n (snd o) (Some c) /\ dup_reported (n_el n) taken (snd o) /\
      (tag_name (n_el n) = Ok (u "ix:nonFraction") /\ number_fact pf n c f \/
       tag_name (n_el n) = Ok (u "ix:nonNumeric") /\ text_fact ev n c f)
  end.
Proof. intros [es H|c f es H Ht Hn Hd|c f es H Ht Hn Hd]; cbn; eauto 8. Qed.

Section Filing.
Variable parse_date : str -> res date.
Variable rep : repository.
Variable py_float : str -> option bool.
Variable era_valid : list (part * str) -> res bool.
Variable kont : list str -> option (list (string * xml * list (str * str)) * list str).

(** The documents are read with these contexts, facts and errors. *)
Definition opened (docs : list document) (cs : contexts) (fr : ifacts) (errors : list (error xml)) : Prop :=
  exists taken s, parse_facts_xhtml parse_date rep py_float era_valid kont docs empty_state = Ok (taken, cs, fr, s) /\
    errors = s_errors s.
Definition crashes (docs : list document) : Prop :=
  exists e, parse_facts_xhtml parse_date rep py_float era_valid kont docs empty_state = Raise e.
Lemma opened_or_crashes docs : (exists cs fr es, opened docs cs fr es) \/ crashes docs.
Proof.
  unfold opened, crashes.
  destruct (parse_facts_xhtml _ _ _ _ _ docs empty_state) as [[[[taken cs] fr] s]|e]; [left|right; eauto].
  exists cs, fr, (s_errors s), taken, s. auto.
Qed.

(** ** C64: each inline fact element becomes the fact it describes *)

Notation all_conventional docs := (forall n, In n (doc_facts docs) -> conventional n).
Definition accounts (docs : list document) (fr : ifacts) (errors : list (error xml))
  (us : list (option characteristic * list (error xml))) (os : list (option ifact * list (error xml))) : Prop :=
  stored (somes (map fst os)) fr /\
  exists before between, errors = before ++ concat (map snd us) ++ between ++ concat (map snd os).

Lemma reading_outcomes docs taken cs fr errors osc osu osf tu tk e1 e2 e3 e6 e7 :
  reading parse_date rep py_float era_valid kont docs taken cs fr errors osc osu osf tu tk e1 e2 e3 e6 e7 -> all_conventional docs ->
  let docs0 := [holding (doc_contexts docs)] in
  Forall2 unit_outcome (doc_units docs) osu /\
  Forall2 (inline_outcome rep py_float era_valid (doc_contexts docs) (somes (map fst osu))
             (entity_shared docs0) (period_shared parse_date) (explicit_shared rep docs0) (typed_shared rep docs0))
    (doc_facts docs) osf.
Proof.
  intros R Hc docs0.
  destruct (rd_contexts _ _ _ _ _ _ _ _ _ _ _ _ _ _ _ _ _ _ _ _ R) as (tc & Hcs & Hus).
  destruct (rd_facts _ _ _ _ _ _ _ _ _ _ _ _ _ _ _ _ _ _ _ _ R Hc) as [Hf Hfr].
  assert (Ecs := rd_cs _ _ _ _ _ _ _ _ _ _ _ _ _ _ _ _ _ _ _ _ R).
  split; [eapply units_read_forall, Hus|].
  clear Hfr R.
  assert (G := contexts_found_get _ _ _ _ _ _ _ Hcs). rewrite <- Ecs in G.
  assert (UU : forall n us es, units_found (fun i => last_unit i (somes (map fst osu))) n us es ->
    fact_units (somes (map fst osu)) n us es).
  { intros n us es. unfold units_found, fact_units.
    destruct (attr (n_el n) (u "unitRef")) as [[|c0 id]|]; auto.
    assert (L := last_unit_spec (c0 :: id) (somes (map fst osu))).
    intros [(c & -> & E)|(-> & E & Hr)]; rewrite E in L; [left; eauto|right; auto]. }
  assert (CF : forall n es c, context_found rep (fun i => last_unit i (somes (map fst osu))) cs n es (Some c) ->
    exists e us cid xc c0, fact_concept rep (n_el n) e /\ fact_units (somes (map fst osu)) n us es /\
      attr (n_el n) (u "contextRef") = Some cid /\ first_with (usable cid) (doc_contexts docs) xc /\
      context_as (entity_shared docs0) (period_shared parse_date) (explicit_shared rep docs0) (typed_shared rep docs0) xc [] c0 /\
      c = fold_left add_characteristic (ChConcept e :: us) c0).
  { intros n es c Hf0. inversion Hf0 as [| | | |e us cid c0 H1 H2 H3 H4]; subst.
    specialize (G cid). rewrite H4 in G. destruct G as (xc & G1 & G2).
    exists e, us, cid, xc, c0. repeat split; auto. }
  clear Hc. induction Hf as [tk|n l tk es os taken' Ho Hf IH|n l tk f es os taken' Ho Hf IH]; constructor; auto; clear IH Hf.
  - unfold inline_outcome. cbn. assert (Hcf := fact_found_cases _ _ _ _ _ _ _ _ Ho). cbn in Hcf.
    inversion Hcf as [A1 A2|name A1 A2 A3|A1 A2|cid A1 A2 A3|]; subst.
    + apply no_name; assumption.
    + eapply no_concept; eassumption.
    + apply no_reference; assumption.
    + eapply no_context; [exact A1| |exact A3]. specialize (G cid). rewrite A2 in G. exact G.
  - unfold inline_outcome. cbn. assert (Hff := fact_found_cases _ _ _ _ _ _ _ _ Ho). cbn in Hff.
    destruct Hff as (c & Hcf & Hd & Hn).
    destruct (CF _ _ _ Hcf) as (e & us & cid & xc & c0 & B1 & B2 & B3 & B4 & B5 & B6).
    destruct Hn as [[Ht (N1 & N2 & N3 & N4 & N5)]|[Ht (N1 & N2 & N3 & N4 & N5)]];
      exists e, us, cid, xc, c0; repeat split; auto; congruence.
Qed.
(** One outcome per element, in order: a fact with the concept, the unit and the context that the
    element names, its own identifier, value, decimals and precision; or no fact and a report that
    says what is missing.  Characteristics are written in some context with the same key. *)
Theorem C64_facts_partial docs cs fr errors : opened docs cs fr errors -> all_conventional docs ->
  let docs0 := [holding (doc_contexts docs)] in
  exists us os,
    Forall2 unit_outcome (doc_units docs) us /\
    Forall2 (inline_outcome rep py_float era_valid (doc_contexts docs) (somes (map fst us))
               (entity_shared docs0) (period_shared parse_date) (explicit_shared rep docs0) (typed_shared rep docs0))
      (doc_facts docs) os /\
    accounts docs fr errors us os.
Proof.
  intros (taken & s & H & ->) Hc docs0.
  apply parse_all in H as (osc & osu & osf & tu & tk & e1 & e2 & e3 & e6 & e7 & R).
  destruct (reading_outcomes _ _ _ _ _ _ _ _ _ _ _ _ _ _ _ R Hc) as [Hu Ho].
  exists osu, osf. split; [exact Hu|]. split; [exact Ho|]. split.
  - destruct (rd_facts _ _ _ _ _ _ _ _ _ _ _ _ _ _ _ _ _ _ _ _ R Hc) as [_ ->]. apply stored_fold.
  - exists (e1 ++ e2 ++ e3 ++ concat (map snd osc)), (e6 ++ e7). rewrite (rd_errors _ _ _ _ _ _ _ _ _ _ _ _ _ _ _ _ _ _ _ _ R Hc), <- !app_assoc. reflexivity.
Qed.

(** All characteristics are exactly those of the context, if equal keys mean equal things. *)
Theorem C64_exact_partial docs cs fr errors : opened docs cs fr errors -> all_conventional docs ->
  let docs0 := [holding (doc_contexts docs)] in
  one_scheme docs0 -> one_explicit rep docs0 -> one_typed rep docs0 -> plain_dimensions docs0 ->
  plain_periods docs0 -> no_period_word parse_date ->
  exists us os,
    Forall2 unit_outcome (doc_units docs) us /\
    Forall2 (inline_outcome rep py_float era_valid (doc_contexts docs) (somes (map fst us))
               entity_exact (period_exact parse_date) (explicit_exact rep) (typed_exact rep))
      (doc_facts docs) os /\
    accounts docs fr errors us os.
Proof.
  intros H Hc docs0 H1 H2 H3 H4 H5 H6. destruct (C64_facts_partial docs cs fr errors H Hc) as (us & os & Hu & Ho & Ha).
  exists us, os. split; [exact Hu|]. split; [|exact Ha]. revert Ho. apply inline_mono.
  - intros x r Hx. apply entity_to_exact; assumption.
  - intros x r Hx. apply period_to_exact; auto.
  - intros x r Hx. apply explicit_to_exact; assumption.
  - intros x r Hx. apply typed_to_exact; assumption.
Qed.

(** An element that names a concept and a usable context always becomes a fact. *)
Definition readable (contexts : list xml) (n : node) : Prop :=
  (exists e, fact_concept rep (n_el n) e) /\
  exists cid xc, attr (n_el n) (u "contextRef") = Some cid /\ In xc contexts /\ usable cid xc.
Theorem C64_kept contexts n es : readable contexts n -> ~ dropped rep contexts n es.
Proof.
  intros ((e & He) & cid & xc & Hr & Hin & Hu) [Hn _|name Hn Hc _|Hr' _|cid' Hr' Hc _].
  - destruct He as (name & q & E & _). congruence.
  - exact (Hc e He).
  - congruence.
  - assert (cid' = cid) by congruence. subst. exact (Hc xc Hin Hu).
Qed.

(** No dimension of the contexts is named like one of the four core aspects. *)
Definition plain_aspects (contexts : list xml) : Prop :=
  forall x a, occurs [holding contexts] x -> attr x (u "dimension") = Some a -> is_core_aspect a = false.

(** The fact shows the concept, period, entity and unit. *)
Theorem C64_characteristics contexts units n f es : plain_aspects contexts ->
  Forall (fun c => class_of c = ClsUnit) units ->
  inline_fact rep py_float era_valid contexts units
    entity_exact (period_exact parse_date) (explicit_exact rep) (typed_exact rep) n f es ->
  exists e us cid xc xp xe,
    fact_concept rep (n_el n) e /\ fact_units units n us es /\
    attr (n_el n) (u "contextRef") = Some cid /\ first_with (usable cid) contexts xc /\
    find_kid (u "period") xc = Some xp /\ find_kid (u "entity") xc = Some xe /\
    get_characteristic (f_context (if_fact f)) a_concept = Some (ChConcept e) /\
    get_characteristic (f_context (if_fact f)) a_unit = hd_error us /\
    (forall p, writes_period parse_date xp p ->
       get_characteristic (f_context (if_fact f)) a_period = Some (ChPeriod p)) /\
    (forall id scheme, writes_entity xe id scheme ->
       get_characteristic (f_context (if_fact f)) a_entity = Some (ChEntity id scheme)).
Proof.
  intros Hpl Hun (e & us & cid & xc & c & H1 & H2 & H3 & H4 & (id & xp & xe & p & en & ds & K1 & K2 & K3 & K4 & K5 & K6 & ->) & H6 & _).
  exists e, us, cid, xc, xp, xe. repeat (split; [assumption|]).
  assert (Hxc : occurs [holding contexts] xc).
  { apply holding_occurs. destruct H4 as (pre & post & -> & _). apply in_or_app. right. left. reflexivity. }
  assert (Hds : forall d, In d ds -> is_core_aspect (aspect_of d) = false).
  { intros d Hd. unfold dimensions_are in K6. destruct (find_kid (u "segment") xe) as [seg|] eqn:Es; [|subst ds; destruct Hd].
    destruct K6 as (rs & Hrs & ->). unfold somes in Hd. apply in_flat_map in Hd as ([d'|] & Hr & Hd); [|destruct Hd].
    destruct Hd as [->|[]].
    assert (Hseg : occurs [holding contexts] seg)
      by (exact (occurs_find _ _ _ _ (occurs_find _ _ _ _ Hxc K3) Es)).
    assert (exists y, In y (x_kids seg) /\ dimension_is (explicit_exact rep) (typed_exact rep) y (Some d)) as (y & Hy & Hdim).
    { clear -Hrs Hr. induction Hrs as [|y r ys rs Hyr Hrs IH]; [destruct Hr|].
      destruct Hr as [->|Hr]; [exists y; cbn; auto|]. destruct (IH Hr) as (z & Hz & H). exists z. cbn; auto. }
    assert (Hoy := occurs_kid _ _ _ Hseg Hy).
    destruct Hdim as [[_ (dt & mt & d0 & m & (Ha & _) & ->)]|(_ & _ & dt & v & d0 & (Ha & _) & ->)]; exact (Hpl y dt Hoy Ha). }
  assert (Hus : us = [] \/ exists c, us = [c] /\ class_of c = ClsUnit).
  { unfold fact_units in H2. destruct (attr (n_el n) (u "unitRef")) as [[|c0 i]|]; [left; apply H2| |left; apply H2].
    destruct H2 as [(c & -> & pre & post & E & _)|(-> & _)]; [|left; reflexivity]. right. exists c. split; [reflexivity|].
    rewrite Forall_forall in Hun. apply Hun. rewrite E. apply in_or_app. right. left. reflexivity. }
  rewrite H6, <- fold_left_app. cbn [app].
  assert (GET : forall a, get_characteristic
     (fold_left add_characteristic ((opt_list p ++ opt_list en ++ ds) ++ ChConcept e :: us) (new_context id)) a =
     find (fun x => str_eqb (aspect_of x) a) (opt_list p ++ opt_list en ++ ds ++ ChConcept e :: us)).
  { intros a. rewrite fold_get by apply new_ok. rewrite <- !app_assoc. reflexivity. }
  assert (SK : forall a, is_core_aspect a = true -> forall r,
     find (fun x => str_eqb (aspect_of x) a) (ds ++ r) = find (fun x => str_eqb (aspect_of x) a) r).
  { intros a Ha r. rewrite find_app. destruct (find _ ds) as [d|] eqn:Ef; [|reflexivity].
    apply find_some in Ef as [Hd E]. apply str_eqb_eq in E. subst a. rewrite (Hds d Hd) in Ha. discriminate. }
  Local Transparent u.
  assert (CP : p = None \/ exists q, p = Some (ChPeriod q)).
  { destruct p as [p|]; [right|left; reflexivity]. destruct K4 as (q & _ & ->). eauto. }
  assert (CE : en = None \/ exists i s, en = Some (ChEntity i s)).
  { destruct en as [en|]; [right|left; reflexivity]. destruct K5 as (i & s & _ & ->). eauto. }
  rewrite !GET. split; [|split; [|split]].
  - destruct CP as [->|(q & ->)], CE as [->|(i & s & ->)]; cbn [opt_list app find]; cbn -[find]; rewrite ?SK; reflexivity.
  - destruct CP as [->|(q & ->)], CE as [->|(i & s & ->)]; cbn [opt_list app find]; cbn -[find]; rewrite SK by reflexivity;
      (destruct Hus as [->|(c & -> & Hk)]; [reflexivity|destruct c; try discriminate; reflexivity]).
  - intros q Hq. destruct p as [p|]; [|destruct (K4 q Hq)]. destruct K4 as (q' & Hq' & ->).
    assert (q' = q) as -> by (eapply writes_period_det; eauto). reflexivity.
  - intros i s Hw. destruct en as [en|]; [|destruct (K5 i s Hw)]. destruct K5 as (i' & s' & Hw' & ->).
    assert (i' = i /\ s' = s) as [-> ->].
    { destruct Hw as (j & E1 & E2 & E3), Hw' as (j2 & F1 & F2 & F3). assert (j2 = j) by congruence. subst. split; congruence. }
    destruct CP as [->|(q & ->)]; reflexivity.
  Local Opaque u.
Qed.

(** ** C66: problems of the structure are reported *)

Notation roots docs := (map d_root (instances docs)).

(** Exactly the problems of the headers, references, resources and hidden elements, in order. *)
Theorem C66_reported docs cs fr errors : opened docs cs fr errors ->
  exists e1 between e2 rest,
    Forall2 made (headers_problems (roots docs) ++ references_problems [] (doc_references docs) ++
                  resources_problems (doc_resources docs)) e1 /\
    Forall2 made (hidden_problems (doc_hidden docs)) e2 /\
    errors = e1 ++ between ++ e2 ++ rest.
Proof.
  intros (taken & s & H & ->).
  apply parse_all in H as (osc & osu & osf & tu & tk & e1 & e2 & e3 & e6 & e7 & R).
  destruct R as [[_ F1] [_ F2] [_ F3] _ [_ F6] _ _ _ _ _ (rest & E) _].
  exists (e1 ++ e2 ++ e3), (concat (map snd osc) ++ concat (map snd osu)), e6, (e7 ++ rest).
  split; [repeat apply Forall2_app; assumption|]. split; [exact F6|]. rewrite E, <- !app_assoc. reflexivity.
Qed.

(** What is fatal instead of reported. *)
Definition fatal (docs : list document) : Prop :=
  headers_fatal (roots docs) \/ references_fatal (doc_references docs) \/
  resources_fatal (doc_resources docs) \/ hidden_fatal (doc_hidden docs).
Theorem C66_fatal_refuted docs : fatal docs -> crashes docs.
Proof.
  intros Hf. destruct (opened_or_crashes docs) as [(cs & fr & es & taken & s & H & _)|H]; [|exact H].
  apply parse_all in H as (osc & osu & osf & tu & tk & e1 & e2 & e3 & e6 & e7 & [[N1 _] [N2 _] [N3 _] _ [N4 _] _ _ _ _ _]).
  destruct Hf as [Hf|[Hf|[Hf|Hf]]]; contradiction.
Qed.
(** A context or unit without identifier. *)
Theorem C66_without_id_refuted docs x : In x (doc_contexts docs ++ doc_units docs) -> attr x (u "id") = None ->
  crashes docs.
Proof.
  intros Hin Hid. destruct (opened_or_crashes docs) as [(cs & fr & es & taken & s & H & _)|H]; [|exact H].
  apply parse_all in H as (osc & osu & osf & tu & tk & e1 & e2 & e3 & e6 & e7 & [_ _ _ (tc & Hc & Hu) _ _ _ _ _ _]).
  exfalso. apply in_app_iff in Hin as [Hin|Hin].
  - assert (G : forall dd l t os t', contexts_found parse_date rep dd l t os t' -> ~ In x l).
    { induction 1 as [|y l t id c es0 os t' H1 H2 H3 H4 IH|y l t id es0 os t' H1 H2 H3 H4 IH]; [intros []| |];
        (intros [->|Hx]; [congruence|auto]). }
    exact (G _ _ _ _ _ Hc Hin).
  - assert (G : forall l t os t', units_read l t os t' -> ~ In x l).
    { induction 1 as [|y l t id o os t' H1 H2 H3 H4 IH]; [intros []|]. intros [->|Hx]; [congruence|auto]. }
    exact (G _ _ _ _ Hu Hin).
Qed.
(** Otherwise the structure alone stops nothing. *)
Theorem C66_survives docs ks tk : ~ fatal docs ->
  doc_contexts docs = [] -> doc_units docs = [] -> doc_facts docs = [] ->
  kont (rev (ids_of (doc_references docs))) = Some (ks, tk) ->
  (forall k, In k ks -> exists e, create (fst (fst k)) (Some (snd (fst k))) (snd k) = Ok e) ->
  exists errors, opened docs [] no_facts errors.
Proof.
  intros Hf Hc Hu Hn Hk Hks. unfold opened.
  enough (X : exists errors r taken s, parse_inline parse_date rep py_float era_valid kont docs empty_state = Ok ((r, (taken, [], no_facts)), s) /\ errors = s_errors s).
  { destruct X as (errors & r & taken & s & E & He). exists errors, taken, s. unfold parse_facts_xhtml, mbind. rewrite E. auto. }
  unfold parse_inline.
  change (filter (fun d => is_instance (d_root d)) docs) with (instances docs).
  assert (OK : forall A B (m : M A) (f : A -> M B) a st st', m st = Ok (a, st') -> mbind m f st = f a st')
    by (intros A B m f a st st' E; unfold mbind; rewrite E; reflexivity).
  destruct (parse_headers_cases (roots docs)) as [[H _]|[_ D1]]; [destruct Hf; left; exact H|].
  destruct (D1 empty_state) as (e1 & E1 & _). rewrite (OK _ _ _ _ _ _ _ E1), kids_named_pick. clear D1 E1.
  cbn [h_hidden h_resources h_references].
  destruct (parse_references_cases (doc_references docs) []) as [[H _]|[_ D]]; [destruct Hf; right; left; exact H|].
  destruct (D (with_errors empty_state e1)) as (e2 & E & _). rewrite (OK _ _ _ _ _ _ _ E). clear D E.
  destruct (parse_resources_cases (doc_resources docs) no_resources) as [[H _]|[_ D]]; [destruct Hf; right; right; left; exact H|].
  destruct (D (with_errors (with_errors empty_state e1) e2)) as (e3 & E & _). rewrite (OK _ _ _ _ _ _ _ E). clear D E.
  destruct (sort_contexts (flat_map x_kids (doc_resources docs)) no_resources) as [-> ->].
  cbn [no_resources r_contexts r_units app].
  change (filter (is_named (u "xbrli:context")) (flat_map x_kids (doc_resources docs))) with (doc_contexts docs).
  change (filter (is_named (u "xbrli:unit")) (flat_map x_kids (doc_resources docs))) with (doc_units docs).
  rewrite Hc, Hu. cbn [parse_contexts parse_units].
  erewrite (OK _ _ (ret _)) by reflexivity. cbn [fst snd]. erewrite (OK _ _ (ret _)) by reflexivity.
  destruct (validate_hidden_cases (doc_hidden docs)) as [[H _]|[_ D]]; [destruct Hf; right; right; right; exact H|].
  set (s3 := with_errors _ e3). destruct (D s3) as (e6 & E & _). rewrite (OK _ _ _ _ _ _ _ E). clear D E.
  unfold check_continuations. rewrite takes_ids, app_nil_r, Hk.
  assert (F : forall ks', incl ks' ks -> forall st, exists st',
    for_each (fun e => report (fst (fst e)) (snd (fst e)) (snd e)) ks' st = Ok (tt, st')).
  { clear -Hks OK. induction ks' as [|k ks' IH]; intros Hi st; cbn [for_each]; [exists st; reflexivity|].
    destruct (Hks k) as (e & Ec); [apply Hi; left; reflexivity|].
    destruct (IH (fun y Hy => Hi y (or_intror Hy)) (with_errors st [e])) as (st' & E'). exists st'.
    rewrite (OK _ _ _ _ tt _ (with_errors st [e])); [exact E'|]. unfold report, insert. rewrite Ec. reflexivity. }
  destruct (F ks (incl_refl ks) (with_errors s3 e6)) as (s4 & E4).
  erewrite (OK _ _ (mbind _ _)); [|erewrite OK; [reflexivity|exact E4]].
  change (flat_map fact_nodes (instances docs)) with (doc_facts docs). rewrite Hn. cbn [parse_facts].
  eexists (s_errors s4), _, tk, s4. split; reflexivity.
Qed.

(** ** C67: repeated identifiers are reported *)

Lemma app_split {A} (l1 l2 a b : list A) x : l1 ++ l2 = a ++ x :: b ->
  (exists b1, l1 = a ++ x :: b1 /\ b = b1 ++ l2) \/ (exists a2, l2 = a2 ++ x :: b /\ a = l1 ++ a2).
Proof.
  revert a. induction l1 as [|y l1 IH]; intros a E; cbn in E.
  - right. exists a. auto.
  - destruct a as [|z a]; cbn in E; injection E as -> E.
    + left. exists l1. auto.
    + destruct (IH a E) as [(b1 & -> & ->)|(a2 & -> & ->)]; [left; exists b1|right; exists a2]; auto.
Qed.
Lemma ids_app a b : ids_of (a ++ b) = ids_of a ++ ids_of b.
Proof. apply flat_map_app. Qed.
Lemma dup_in x taken es i : dup_reported x taken es -> attr x (u "id") = Some i -> In i taken ->
  reported "IXBRL_DUPLICATE_ELEMENT_ID" x es.
Proof. intros H Hi Ht. destruct (H i Hi Ht) as (e & He & Ec). exists [(u "id", i)], e. auto. Qed.
Lemma reported_in code x es es' : incl es es' -> reported code x es -> reported code x es'.
Proof. intros Hi (kw & e & He & Hc). exists kw, e. auto. Qed.
Lemma in_concat_incl {A} (l : list A) ls : In l ls -> incl l (concat ls).
Proof. intros H y Hy. apply in_concat. eauto. Qed.

Lemma references_dup l : forall before a x b i, l = a ++ x :: b -> attr x (u "id") = Some i ->
  In i (ids_of a ++ before) -> In ("IXBRL_DUPLICATE_ELEMENT_ID"%string, Some x) (references_problems before l).
Proof.
  induction l as [|y l IH]; intros before a x b i E Hi Hin; [destruct a; discriminate|].
  cbn [references_problems]. destruct a as [|z a]; cbn in E; injection E as -> ->.
  - apply in_or_app. left. unfold ids_of. cbn [flat_map]. rewrite Hi. cbn [app existsb]. rewrite orb_false_r.
    assert (existsb (str_eqb i) before = true) as -> by (apply (mem_In i before), Hin). left. reflexivity.
  - apply in_or_app. right. apply in_or_app. right. eapply IH; [reflexivity|exact Hi|].
    unfold ids_of in Hin. cbn [flat_map] in Hin. rewrite !in_app_iff in *.
    unfold ids_of at 2. cbn [flat_map]. rewrite app_nil_r. tauto.
Qed.
Lemma contexts_dup docs0 l taken os t' : contexts_found parse_date rep docs0 l taken os t' ->
  t' = rev (ids_of l) ++ taken /\
  forall a x b i, l = a ++ x :: b -> attr x (u "id") = Some i -> In i (ids_of a ++ taken) ->
    reported "IXBRL_DUPLICATE_ELEMENT_ID" x (concat (map snd os)).
Proof.
  assert (S : forall y l t id os t' es (o : option context) ,
    attr y (u "id") = Some id -> dup_reported y t es ->
    (t' = rev (ids_of l) ++ id :: t /\ forall a x b i, l = a ++ x :: b -> attr x (u "id") = Some i ->
       In i (ids_of a ++ id :: t) -> reported "IXBRL_DUPLICATE_ELEMENT_ID" x (concat (map snd os))) ->
    t' = rev (ids_of (y :: l)) ++ t /\ forall a x b i, y :: l = a ++ x :: b -> attr x (u "id") = Some i ->
       In i (ids_of a ++ t) -> reported "IXBRL_DUPLICATE_ELEMENT_ID" x (concat (map snd ((o, es) :: os)))).
  { intros y l0 t id os0 t0 es o H1 Hd [-> IH]. split.
    { unfold ids_of at 2. cbn [flat_map]. rewrite H1. cbn [app rev]. rewrite <- app_assoc. reflexivity. }
    intros a x b i E Hi Hin. cbn [map snd concat]. apply reported_app. destruct a as [|z a]; cbn in E; injection E as -> ->.
    - left. eapply dup_in; eauto.
    - right. eapply IH; [reflexivity|exact Hi|]. unfold ids_of in Hin. cbn [flat_map] in Hin. rewrite H1 in Hin.
      rewrite !in_app_iff in *. cbn in *. tauto. }
  induction 1 as [t|y l t id c es os t' H1 H2 H3 H4 IH|y l t id es os t' H1 H2 H3 H4 IH]; [|eapply S; eassumption..].
  split; [reflexivity|]. intros a x b i E. destruct a; discriminate.
Qed.
Lemma units_dup l taken os t' : units_read l taken os t' ->
  t' = rev (ids_of l) ++ taken /\
  forall a x b i, l = a ++ x :: b -> attr x (u "id") = Some i -> In i (ids_of a ++ taken) ->
    reported "IXBRL_DUPLICATE_ELEMENT_ID" x (concat (map snd os)).
Proof.
  induction 1 as [t|y l t id [o es] os t' H1 H2 Hd H4 [-> IH]].
  { split; [reflexivity|]. intros a x b i E. destruct a; discriminate. }
  split.
  { unfold ids_of at 2. cbn [flat_map]. rewrite H1. cbn [app rev]. rewrite <- app_assoc. reflexivity. }
  intros a x b i E Hi Hin. cbn [map snd concat]. apply reported_app. destruct a as [|z a]; cbn in E; injection E as -> ->.
  - left. eapply dup_in; eauto.
  - right. eapply IH; [reflexivity|exact Hi|]. unfold ids_of in Hin. cbn [flat_map] in Hin. rewrite H1 in Hin.
    rewrite !in_app_iff in *. cbn in *. tauto.
Qed.

(** The elements with identifiers, as far as they are not facts. *)
Definition named_elements (docs : list document) : list xml :=
  doc_references docs ++ doc_contexts docs ++ doc_units docs.
Theorem C67_resources docs cs fr errors a x b i : opened docs cs fr errors ->
  named_elements docs = a ++ x :: b -> attr x (u "id") = Some i -> In i (ids_of a) ->
  reported "IXBRL_DUPLICATE_ELEMENT_ID" x errors.
Proof.
  intros (taken & s & H & ->) E Hi Hin.
  apply parse_all in H as (osc & osu & osf & tu & tk & e1 & e2 & e3 & e6 & e7 & R).
  destruct R as [_ [_ F2] _ (tc & Hc & Hu) _ _ _ _ _ _ (rest & He) _].
  destruct (contexts_dup _ _ _ _ _ Hc) as [-> Dc]. destruct (units_dup _ _ _ _ Hu) as [_ Du].
  rewrite takes_ids, app_nil_r in *. unfold named_elements in E.
  apply app_split in E as [(b1 & E & _)|(a2 & E & ->)].
  - rewrite <- (app_nil_r (ids_of a)) in Hin. apply (references_dup (doc_references docs) [] a x b1 i E Hi) in Hin.
    assert (G : exists e, In e e2 /\ made ("IXBRL_DUPLICATE_ELEMENT_ID"%string, Some x) e).
    { clear -F2 Hin. induction F2 as [|p e l l' Hp F IH]; [destruct Hin|].
      destruct Hin as [->|Hin]; [exists e; cbn; auto|]. destruct (IH Hin) as (e' & H1 & H2). exists e'. cbn; auto. }
    destruct G as (e & Hine & kw & Hm). exists kw, e. split; [|exact Hm]. rewrite He, !in_app_iff. auto.
  - apply app_split in E as [(b1 & E & _)|(a3 & E & ->)].
    + eapply reported_in; [|eapply Dc; [exact E|exact Hi|]].
      * intros e Hine. rewrite He, !in_app_iff. auto.
      * rewrite ids_app, in_app_iff in Hin. rewrite in_app_iff, <- in_rev. tauto.
    + eapply reported_in; [|eapply Du; [exact E|exact Hi|]].
      * intros e Hine. rewrite He, !in_app_iff. auto 7.
      * rewrite !ids_app, !in_app_iff in Hin. rewrite !in_app_iff, <- !in_rev. tauto.
Qed.

(** Facts: all elements that become facts.  Building the continuation chains keeps the identifiers
    taken before. *)
Theorem C67_facts_partial docs cs fr errors a n b i : opened docs cs fr errors -> all_conventional docs ->
  (forall t es t', kont t = Some (es, t') -> incl t t') ->
  doc_facts docs = a ++ n :: b -> readable (doc_contexts docs) n -> attr (n_el n) (u "id") = Some i ->
  In i (ids_of (named_elements docs)) \/
  (exists n', In n' a /\ readable (doc_contexts docs) n' /\ attr (n_el n') (u "id") = Some i) ->
  reported "IXBRL_DUPLICATE_ELEMENT_ID" (n_el n) errors.
Proof.
  intros (taken & s & H & ->) Hconv Hk E Hr Hi Hin.
  apply parse_all in H as (osc & osu & osf & tu & tk & e1 & e2 & e3 & e6 & e7 & R).
  destruct R as [_ _ _ (tc & Hc & Hu) _ (ks & Ekont & _) Ecs Hf He _ _ _].
  destruct (Hf Hconv) as [Hff _]. clear Hf.
  destruct (contexts_dup _ _ _ _ _ Hc) as [-> Dc]. destruct (units_dup _ _ _ _ Hu) as [Et Du].
  rewrite takes_ids, app_nil_r in *.
  assert (G := contexts_found_get _ _ _ _ _ _ _ Hc). rewrite <- Ecs in G.
  assert (NR : forall m es, readable (doc_contexts docs) m ->
    ~ context_found rep (fun j => last_unit j (somes (map fst osu))) cs m es None).
  { intros m es ((e & Hce) & cid & xc & Hrf & Hxc & Hus) Hcf.
    inversion Hcf as [A1 A2|name A1 A2 A3|A1 A2|cid' A1 A2 A3|]; subst.
    - destruct Hce as (name & q & E1 & _). congruence.
    - exact (A2 e Hce).
    - congruence.
    - assert (cid' = cid) by congruence. subst. specialize (G cid). rewrite A2 in G. exact (G xc Hxc Hus). }
  assert (Hin' : In i tk \/ exists n', In n' a /\ readable (doc_contexts docs) n' /\ attr (n_el n') (u "id") = Some i).
  { destruct Hin as [Hin|Hin]; [left|right; exact Hin]. apply (Hk _ _ _ Ekont). rewrite Et.
    unfold named_elements in Hin. rewrite !ids_app, !in_app_iff in Hin. rewrite !in_app_iff, <- !in_rev. tauto. }
  rewrite (He Hconv). eapply reported_in with (es := concat (map snd osf)).
  { intros e Hine. rewrite !in_app_iff. auto 9. }
  rewrite E in Hff. clear He Hconv E Hin Dc Du Ekont.
  revert a tk osf Hff Hin'. induction a as [|m a IH]; intros tk osf Hff Hin.
  - destruct Hin as [Hin|(n' & [] & _)].
    inversion Hff as [|n0 l0 t0 es os t1 Ho Hrest|n0 l0 t0 f es os t1 Ho Hrest]; subst; cbn [map snd concat];
      apply fact_found_cases in Ho; cbn in Ho.
    + destruct (NR _ _ Hr Ho).
    + destruct Ho as (c & _ & Hd & _). apply reported_app. left. eapply dup_in; eauto.
  - inversion Hff as [|n0 l0 t0 es os t1 Ho Hrest|n0 l0 t0 f es os t1 Ho Hrest]; subst; cbn [map snd concat];
      apply reported_app; right; (eapply IH; [exact Hrest|]); apply fact_found_cases in Ho; cbn in Ho.
    + destruct Hin as [Hin|(n' & [->|Hn'] & Hrd & Hid)]; [left; exact Hin|destruct (NR _ _ Hrd Ho)|right; eauto].
    + rewrite take_ids. destruct Hin as [Hin|(n' & [->|Hn'] & Hrd & Hid)].
      * left. apply in_or_app. auto.
      * left. apply in_or_app. left. unfold ids_of. cbn [flat_map]. rewrite Hid. left. reflexivity.
      * right. eauto.
Qed.
End Filing.

(** ** Values of numbers (C64, C65) *)

(** The scale attribute, 0 if there is none. *)
Definition scale_is (x : xml) (z : Z) : Prop :=
  match attr x (u "scale") with None => z = 0%Z | Some t => t <> [] /\ py_int t = Some z end.
(** The value of a number element is what its text shows, times the power of ten of the scale, with
    the sign. *)
Theorem C64_number_value py_float n v t fmt point groups a b z :
  number_is py_float n v -> ~ is_nil (n_el n) ->
  x_text (n_el n) = Some t -> attr (n_el n) (u "format") = Some fmt ->
  In (fmt, (point, groups)) separator_formats -> written point groups (strip t) a b ->
  scale_is (n_el n) z -> ~ (shown a b == 0)%Q ->
  match attr (n_el n) (u "sign") with
  | None => numeral v (shown a b * Qpower 10 z)%Q
  | Some g => g = u "-" -> exists w, v = u "-" ++ w /\ numeral w (shown a b * Qpower 10 z)%Q
  end.
Proof.
  intros Hv Hn Ht Hf Hin Hw Hz Hnz.
  assert (Hx : shows_text n = true) by (unfold shows_text; rewrite Ht; reflexivity).
  assert (v = number_value py_float n) as ->.
  { destruct Hv as [H|[H _]|_ _|_ H _]; [contradiction|congruence|reflexivity|congruence]. }
  unfold number_value. rewrite Ht, Hf.
  assert (Hsc : exists sc, py_int sc = Some z /\ forall o, NumModel.truthy (attr (n_el n) (u "scale")) = o ->
     match o with Some s => s | None => [48%N] end = sc).
  { unfold scale_is in Hz. destruct (attr (n_el n) (u "scale")) as [[|c0 sc]|].
    - destruct Hz as [Hz _]. congruence.
    - exists (c0 :: sc). split; [apply Hz|]. intros o <-. reflexivity.
    - subst z. exists [48%N]. split; [reflexivity|]. intros o <-. reflexivity. }
  destruct Hsc as (sc & Hpi & Hsc). specialize (Hsc _ eq_refl).
  destruct (C02_number_as_shown fmt point groups t a b sc z Hin Hw Hpi Hnz) as (out & Hout & Hnum).
  assert (Hfmt : fmt <> []).
  { intros ->. clear -Hin. Local Transparent u. cbn in Hin. repeat destruct Hin as [Hin|Hin]; try discriminate Hin; exact Hin. Local Opaque u. }
  assert (P : fst (process_non_fraction_value py_float (Some t) (Some fmt) (attr (n_el n) (u "scale")) None) = out).
  { unfold process_non_fraction_value. rewrite Hsc. destruct fmt as [|c0 fmt]; [congruence|]. cbn [NumModel.truthy].
    rewrite Hout. reflexivity. }
  destruct (attr (n_el n) (u "sign")) as [g|].
  - intros ->. rewrite C08_minus by congruence.
    destruct (process_non_fraction_value _ _ _ _ None) as [w es]. cbn in P. subst w. exists out. split; [|exact Hnum].
    Local Transparent u. reflexivity. Local Opaque u.
  - rewrite P. exact Hnum.
Qed.

(** C65: the value of a number around another number is the markup of the inner element; sign and
    scale play no role. *)
Theorem C65_nested_refuted py_float n v : number_is py_float n v -> ~ is_nil (n_el n) ->
  shows_text n = false -> has_inside n = true -> v = n_markup n.
Proof. intros [H|(_ & H & _)|_ H|_ _ _] Hn Ht Hc; [contradiction|congruence|congruence|reflexivity]. Qed.

Lemma no_differing p a b c d e f : exists x, create (elem := xml) "IXBRL_DIFFERING_FORMAT_SCALE_OR_UNIT_FOR_NON_FRACTION_CHILD"
  (Some p) [(u "this_format", a); (u "this_scale", b); (u "this_unit", c); (u "parent_format", d); (u "parent_scale", e);
            (u "parent_unit", f)] = Raise x.
Proof. Local Transparent u create. eexists. vm_compute. reflexivity. Local Opaque u create. Qed.

(** A number inside a number with another format, scale or unit: recording the error fails, and
    nothing can be opened. *)
Theorem C65_differing_refuted py_float n c taken s p a :
  n_parent n = Some p -> tag_name p = Ok (u "ix:nonFraction") ->
  In a [u "format"; u "scale"; u "unitRef"] -> attr (n_el n) a <> attr p a ->
  exists e, parse_non_fraction py_float n c taken s = Raise e.
Proof.
  intros Hp Ht Ha Hd.
  assert (CP : forall st, exists e, check_parent (n_el n) (Some p) st = Raise e).
  { intros st. unfold check_parent. rewrite Ht. unfold mbind, lift. rewrite str_eqb_refl. cbn [negb].
    destruct (attr_prefixed_total (n_el n) (u "xsi:nil")) as [v ->].
    assert (W : existsb (fun a => negb (opt_str_eqb (attr (n_el n) a) (attr p a))) [u "format"; u "scale"; u "unitRef"] = true).
    { apply existsb_exists. exists a. split; [exact Ha|]. apply negb_true_iff, not_true_iff_false.
      rewrite opt_str_eqb_true. exact Hd. }
    destruct (when (opt_str_eqb v (Some (u "true"))) _ st) as [[[] st']|e]; [|eauto].
    rewrite W. unfold when, report, insert. cbn [map app].
    Local Transparent u.
    edestruct (no_differing p) as [x Hx]. Local Opaque u.
    eexists. rewrite Hx. reflexivity. }
  assert (NB : forall A B (m : M A) (f : A -> M B) st, (forall x st', exists e, f x st' = Raise e) -> exists e, mbind m f st = Raise e).
  { intros A B m f st H. unfold mbind. destruct (m st) as [[x st']|e]; [apply H|eauto]. }
  unfold parse_non_fraction. rewrite Hp.
  do 8 (apply NB; intros ? ?). unfold mbind at 1.
  match goal with |- context [check_parent ?x ?q ?st] => destruct (CP st) as [e ->] end. eauto.
Qed.

(** ** Sample documents *)

Local Transparent u create.
Definition i_scope : scope :=
  [(Some (u "ix"), ix_2013); (Some (u "xbrli"), u "http://www.xbrl.org/2003/instance");
   (Some (u "link"), u "http://www.xbrl.org/2003/linkbase"); (Some (u "xsi"), u "http://www.w3.org/2001/XMLSchema-instance");
   (Some (u "t"), u "urn:t"); (Some (u "iso"), u "urn:iso")].
Definition i_elem (tag : str) (attrs : list (string * string)) (text : option string) (kids : list xml) : xml :=
  Xml (Some tag) (map (fun kv => (u (fst kv), u (snd kv))) attrs) i_scope (option_map u text) kids.
Definition ix (local : string) : str := to_clark ix_2013 (u local).
Definition i_period := i_elem (xbrli "period") [] None [i_elem (xbrli "instant") [] (Some "2020-12-31"%string) []].
Definition i_entity := i_elem (xbrli "entity") [] None [i_elem (xbrli "identifier") [("scheme", "urn:s")]%string (Some "E1"%string) []].
Definition i_context (id : string) : xml := i_elem (xbrli "context") [("id"%string, id)] None [i_entity; i_period].
Definition i_unit (id : string) : xml :=
  i_elem (xbrli "unit") [("id"%string, id)] None [i_elem (xbrli "measure") [] (Some "iso:USD"%string) []].
Definition i_schema : xml := i_elem (to_clark (u "http://www.xbrl.org/2003/linkbase") (u "schemaRef")) [] None [].
Definition i_header (kids : list xml) : xml := i_elem (ix "header") [] None kids.
Definition i_references (id : string) (kids : list xml) : xml := i_elem (ix "references") [("id"%string, id)] None kids.
Definition i_resources (kids : list xml) : xml := i_elem (ix "resources") [] None kids.
Definition i_hidden (kids : list xml) : xml := i_elem (ix "hidden") [] None kids.
Definition i_doc (header : list xml) (nodes : list node) : document :=
  Document (i_elem (u "html") [] None [i_elem (u "body") [] None header]) nodes.
Definition i_comment : xml := Xml None [] i_scope None [].
Definition plain_node (x : xml) : node := Node x None [] [] (fun _ => Ok (match x_text x with Some t => t | None => [] end)).
Definition i_number (attrs : list (string * string)) (text : string) : node :=
  plain_node (i_elem (ix "nonFraction") (("name", "t:Cash") :: attrs)%string (Some text) []).
Definition i_text (attrs : list (string * string)) (text : string) : node :=
  plain_node (i_elem (ix "nonNumeric") (("name", "t:Cash") :: attrs)%string (Some text) []).

Definition i_parse (docs : list document) :=
  parse_facts_xhtml iso_date s_rep (fun _ => Some false) (fun _ => Ok true) (fun t => Some ([], t)) docs empty_state.
(** The codes of the errors and the facts, with their identifiers and values. *)
Definition i_facts (docs : list document) : res (list str * list (option str * str) * list (option str * str)) :=
  do! r <- i_parse docs;
  let '(_, _, fr, s) := r in
  Ok (map (fun e => er_code e) (s_errors s), map (fun kv => (Some (fst kv), f_value (if_fact (snd kv)))) (by_id fr),
      map (fun f => (if_id f, f_value (if_fact f))) (without_id fr)).

(** *** C64 *)

Definition i_member : xml :=
  i_elem (u "{http://xbrl.org/2006/xbrldi}explicitMember") [("dimension", "t:Axis")]%string (Some "t:M1"%string) [].
Definition i_context2 : xml :=
  i_elem (xbrli "context") [("id", "c2")]%string None
    [i_elem (xbrli "entity") [] None
       [i_elem (xbrli "identifier") [("scheme", "urn:s")]%string (Some "E1"%string) [];
        i_elem (xbrli "segment") [] None [i_member]]; i_period].
Definition i_good : list xml :=
  [i_header [i_references "r" [i_schema]; i_resources [i_context "c1"; i_unit "usd"; i_context2]]].
Definition i_sample : document := i_doc i_good
  [i_number [("contextRef", "c1"); ("unitRef", "usd"); ("id", "f1"); ("format", "ixt:num-dot-decimal");
             ("scale", "3"); ("sign", "-"); ("decimals", "-3")]%string "1,234.5";
   i_text [("contextRef", "c2")]%string "hello"; i_text [("contextRef", "c9"); ("id", "f2")]%string "lost"].

(** The sample is read: a number, a text, and a report for the third element. *)
Example i_sample_read : i_facts [i_sample] = Ok ([u "501"], [(Some (u "f1"), u "-1234500")], [(None, u "hello")]).
Proof. vm_compute. reflexivity. Qed.
Example i_sample_rows :
  match i_parse [i_sample] with
  | Ok (_, _, fr, _) =>
      Some (map (fun kv => (convert_to_df_row (f_context (if_fact (snd kv))), if_decimals (snd kv))) (by_id fr),
            map (fun f => convert_to_df_row (f_context (if_fact f))) (without_id fr))
  | Raise _ => None
  end =
  Some ([([(u "concept", u "t:Cash"); (u "entity", u "{urn:s}E1"); (u "period", u "2020-12-31");
           (u "unit", u "usd")], Some (Finite (-3)))],
        [[(u "concept", u "t:Cash"); (u "entity", u "{urn:s}E1"); (u "period", u "2020-12-31");
          (u "t:Axis", u "t:M1")]]).
Proof. vm_compute. reflexivity. Qed.

(** It meets all conditions of [C64_exact_partial]. *)
Example i_sample_opened : exists cs fr es,
  opened iso_date s_rep (fun _ => Some false) (fun _ => Ok true) (fun t => Some ([], t)) [i_sample] cs fr es /\
  length es = 1.
Proof.
  unfold opened. fold (i_parse [i_sample]). destruct (i_parse [i_sample]) as [[[[t cs] fr] s]|] eqn:E.
  - exists cs, fr, (s_errors s). split; [exists t, s; auto|].
    assert (match i_parse [i_sample] with Ok (_, s) => length (s_errors s) | Raise _ => 0 end = 1) as H
      by (vm_compute; reflexivity).
    rewrite E in H. exact H.
  - exfalso. assert (is_ok (i_parse [i_sample]) = true) as H by (vm_compute; reflexivity). rewrite E in H. discriminate.
Qed.
Example i_sample_conventional : forall n, In n (doc_facts [i_sample]) -> conventional n.
Proof.
  intros n H. vm_compute in H. destruct H as [<-|[<-|[<-|[]]]]; unfold conventional; vm_compute; auto.
Qed.
Definition i_docs0 : list xml := [holding (doc_contexts [i_sample])].
Definition i_identifier : xml := i_elem (xbrli "identifier") [("scheme", "urn:s")]%string (Some "E1"%string) [].
Definition i_instant : xml := i_elem (xbrli "instant") [] (Some "2020-12-31"%string) [].
Lemma i_docs0_occurs x : occurs i_docs0 x ->
  In x [Xml None [] [] None [i_context "c1"; i_context2]; i_context "c1"; i_entity; i_identifier; i_period; i_instant;
        i_context2; hd i_comment (x_kids i_context2); i_identifier;
        i_elem (xbrli "segment") [] None [i_member]; i_member; i_period; i_instant].
Proof.
  intros (i & [<-|[]] & H).
  match type of H with In x ?l => match goal with |- In x ?r => assert (E : l = r) by (vm_compute; reflexivity) end end.
  rewrite <- E. exact H.
Qed.
Ltac i_each H := apply i_docs0_occurs in H; repeat (destruct H as [H|H]; [subst|]); [..|destruct H].
Example i_sample_consistent :
  one_scheme i_docs0 /\ one_explicit s_rep i_docs0 /\ one_typed s_rep i_docs0 /\ plain_dimensions i_docs0 /\
  plain_periods i_docs0 /\ plain_aspects (doc_contexts [i_sample]).
Proof.
  repeat split.
  - intros x y id s s' Hx Hy (i & E1 & E2 & E3) (j & F1 & F2 & F3).
    assert (i = i_identifier)
      by (i_each Hx; vm_compute in E1; first [discriminate|injection E1 as <-; reflexivity]).
    assert (j = i_identifier)
      by (i_each Hy; vm_compute in F1; first [discriminate|injection F1 as <-; reflexivity]).
    congruence.
  - match goal with |- ?a = _ => assert (E1 : a = e_axis) end.
    { destruct H1 as (A1 & B1 & _ & (q & Q1 & G1) & _). clear H0 H2. i_each H; try discriminate A1.
      vm_compute in A1. injection A1 as <-. vm_compute in Q1. injection Q1 as <-. vm_compute in G1.
      injection G1 as <-. reflexivity. }
    destruct H2 as (A1 & B1 & _ & (q & Q1 & G1) & _). clear H H1. i_each H0; try discriminate A1.
    vm_compute in A1. injection A1 as <-. vm_compute in Q1. injection Q1 as <-. vm_compute in G1.
    injection G1 as <-. reflexivity.
  - match goal with |- ?a = _ => assert (E1 : a = e_m1) end.
    { destruct H1 as (A1 & B1 & _ & _ & (q & Q1 & G1)). clear H0 H2. i_each H; try discriminate A1.
      vm_compute in B1. injection B1 as <-. vm_compute in Q1. injection Q1 as <-. vm_compute in G1.
      injection G1 as <-. reflexivity. }
    destruct H2 as (A1 & B1 & _ & _ & (q & Q1 & G1)). clear H H1. i_each H0; try discriminate A1.
    vm_compute in B1. injection B1 as <-. vm_compute in Q1. injection Q1 as <-. vm_compute in G1.
    injection G1 as <-. reflexivity.
  - intros x y dt v d d' Hx Hy (A1 & (k & r & E & _) & _). exfalso.
    i_each Hx; try discriminate A1; vm_compute in E; discriminate.
  - intros x t Hx. i_each Hx; vm_compute; intros [= <-]; intros H;
      repeat (destruct H as [H|H]; [discriminate|]); destruct H.
  - intros x Hx. i_each Hx; intros n i t Hn; cbn [In] in Hn;
      destruct Hn as [<-|[<-|[<-|[]]]]; vm_compute; intros [= <-] [= <-] H;
      repeat (destruct H as [H|H]; [discriminate|]); destruct H.
  - intros x t Hx. i_each Hx; vm_compute; intros [= <-]; reflexivity.
Qed.
Example i_sample_number :
  let n := i_number [("contextRef", "c1"); ("unitRef", "usd"); ("id", "f1"); ("format", "ixt:num-dot-decimal");
             ("scale", "3"); ("sign", "-"); ("decimals", "-3")]%string "1,234.5" in
  In n (doc_facts [i_sample]) /\ readable s_rep (doc_contexts [i_sample]) n /\ ~ is_nil (n_el n) /\
  In (u "ixt:num-dot-decimal", (46%N, u ", ")) separator_formats /\
  written 46%N (u ", ") (strip (u "1,234.5")) (u "1,234") (u "5") /\ scale_is (n_el n) 3.
Proof.
  split; [vm_compute; auto|]. split.
  { split.
    - exists e_cash, (u "t:Cash"), (QName (u "urn:t") (u "t") (u "Cash")).
      split; [reflexivity|]. split; [vm_compute; reflexivity|vm_compute; reflexivity].
    - exists (u "c1"), (i_context "c1"). split; [reflexivity|]. split; [vm_compute; auto|].
      split; [reflexivity|]. split; vm_compute; discriminate. }
  split; [vm_compute; discriminate|]. split; [left; reflexivity|]. split; [repeat split; vm_compute; reflexivity|].
  unfold scale_is. cbn. split; [discriminate|vm_compute; reflexivity].
Qed.

(** Another prefix for the inline namespace: the documents cannot be opened if the first fact is
    written with it; a later fact is lost without a report, and the fact before it is stored once
    more. *)
Definition other_scope : scope := (Some (u "ix"), u "urn:other") :: (Some (u "x"), ix_2013) :: tl i_scope.
Definition other_text (attrs : list (string * string)) (text : string) : node :=
  plain_node (Xml (Some (ix "nonNumeric"))
    (map (fun kv => (u (fst kv), u (snd kv))) (("name", "t:Cash") :: attrs)%string) other_scope (Some (u text)) []).
Theorem C64_prefix_refuted :
  i_parse [i_doc i_good [other_text [("contextRef", "c1")]%string "first"]] = Raise UnboundLocalError /\
  i_facts [i_doc i_good [i_text [("contextRef", "c1")]%string "first"; other_text [("contextRef", "c1")]%string "second"]] =
    Ok ([], [], [(None, u "first"); (None, u "first")]).
Proof. split; vm_compute; reflexivity. Qed.
(** Without a binding of the prefix at the root there are no facts and no report about them. *)
Theorem C64_root_refuted nodes :
  let root := i_elem (u "html") [] None [i_elem (u "body") [] None i_good] in
  i_facts [Document (Xml (x_tag root) (x_attrs root) [] (x_text root) (x_kids root)) nodes] = Ok ([], [], []).
Proof. vm_compute. reflexivity. Qed.

(** *** C65 *)

Definition inner_number : node :=
  i_number [("contextRef", "c1"); ("unitRef", "usd"); ("id", "inner"); ("format", "ixt:num-dot-decimal")]%string "12".
Definition outer_number : node :=
  Node (i_elem (ix "nonFraction") [("name", "t:Cash"); ("contextRef", "c1"); ("unitRef", "usd"); ("id", "outer");
          ("format", "ixt:num-dot-decimal"); ("sign", "-")]%string None [n_el inner_number]) None [None]
    (u "<ix:nonFraction>12</ix:nonFraction>") (fun _ => Ok []).
(** No error, but the outer value is no number. *)
Theorem C65_value_refuted :
  i_facts [i_doc i_good [outer_number; Node (n_el inner_number) (Some (n_el outer_number)) [] [] (fun _ => Ok [])]] =
  Ok ([], [(Some (u "outer"), u "<ix:nonFraction>12</ix:nonFraction>"); (Some (u "inner"), u "12")], []).
Proof. vm_compute. reflexivity. Qed.
Example C65_hypotheses : ~ is_nil (n_el outer_number) /\ shows_text outer_number = false /\
  has_inside outer_number = true.
Proof. split; [vm_compute; discriminate|]. split; reflexivity. Qed.
(** With another scale nothing can be opened. *)
Example C65_differing_example :
  let inner := i_elem (ix "nonFraction") [("name", "t:Cash"); ("contextRef", "c1"); ("unitRef", "usd");
                 ("format", "ixt:num-dot-decimal"); ("scale", "3")]%string (Some "12"%string) [] in
  is_ok (i_parse [i_doc i_good [outer_number; Node inner (Some (n_el outer_number)) [] [] (fun _ => Ok [])]]) = false /\
  tag_name (n_el outer_number) = Ok (u "ix:nonFraction") /\ attr inner (u "scale") <> attr (n_el outer_number) (u "scale").
Proof. split; [vm_compute; reflexivity|]. split; [vm_compute; reflexivity|discriminate]. Qed.

(** *** C66 *)

Definition i_odd : document := i_doc
  [i_header [i_hidden [i_elem (ix "tuple") [] None []]; i_hidden []; i_elem (ix "footnote") [] None [];
             i_references "r" []; i_references "r" [i_schema]; i_resources [i_schema]]] [].
(** Many problems, all reported. *)
Example C66_example :
  map (fun p => fst p) (headers_problems (map d_root (instances [i_odd])) ++
    references_problems [] (doc_references [i_odd]) ++ resources_problems (doc_resources [i_odd]) ++
    hidden_problems (doc_hidden [i_odd])) =
  ["IXBRL_INVALID_HEADER_CHILD"; "IXBRL_MORE_THAN_ONE_HIDDEN_HEADER_CHILD";
   "IXBRL_REFERENCES_ELEMENT_WITHOUT_CHILDREN"; "IXBRL_DUPLICATE_ELEMENT_ID";
   "IXBRL_INVALID_RESOURCES_CHILD"; "IXBRL_ELEMENT_NOT_SUPPORTED"]%string /\
  is_ok (i_parse [i_odd]) = true /\
  doc_contexts [i_odd] = [] /\ doc_units [i_odd] = [] /\ doc_facts [i_odd] = [].
Proof. repeat split; vm_compute; reflexivity. Qed.
Example C66_none : is_ok (i_parse []) = true /\
  map (fun p => fst p) (headers_problems []) = ["IXBRL_NO_HEADER_ELEMENTS"; "IXBRL_NO_RESOURCES_ELEMENTS"]%string.
Proof. split; vm_compute; reflexivity. Qed.

(** Comments, illegal children and a missing identifier are fatal. *)
Definition fatal_examples : list (list xml) :=
  [[i_header [i_comment; i_references "r" [i_schema]; i_resources []]];
   [i_header [i_references "r" [i_schema; i_comment]; i_resources []]];
   [i_header [i_references "r" [i_context "c1"]; i_resources []]];
   [i_header [i_references "r" [i_schema]; i_resources [i_comment; i_context "c1"]]];
   [i_header [i_hidden [i_comment]; i_references "r" [i_schema]; i_resources []]];
   [i_header [i_hidden [i_elem (ix "header") [] None []]; i_references "r" [i_schema]; i_resources []]];
   [i_header [i_references "r" [i_schema]; i_resources [i_elem (xbrli "context") [] None [i_entity; i_period]]]];
   [i_header [i_references "r" [i_schema]; i_resources [i_elem (xbrli "unit") [] None []]]]].
Theorem C66_refuted : forall h, In h fatal_examples -> exists e, i_parse [i_doc h []] = Raise e.
Proof.
  intros h H. assert (G : forallb (fun h => negb (is_ok (i_parse [i_doc h []]))) fatal_examples = true)
    by (vm_compute; reflexivity).
  rewrite forallb_forall in G. specialize (G h H). destruct (i_parse [i_doc h []]) as [r|e]; [discriminate|eauto].
Qed.
(** The first six meet the condition of [C66_fatal_refuted]. *)
Example C66_fatal_example : Forall (fun h => fatal [i_doc h []]) (firstn 6 fatal_examples).
Proof.
  unfold fatal. cbn [firstn fatal_examples]. repeat (apply Forall_cons; [|]); [..|apply Forall_nil].
  - left. eexists. split; [left; reflexivity|]. right. eexists. exists i_comment.
    split; [vm_compute; left; reflexivity|]. split; [left; reflexivity|reflexivity].
  - right. left. eexists. exists i_comment. split; [vm_compute; left; reflexivity|]. split; [vm_compute; auto|left; reflexivity].
  - right. left. eexists. exists (i_context "c1"). split; [vm_compute; left; reflexivity|].
    split; [vm_compute; auto|right; vm_compute; reflexivity].
  - right. right. left. eexists. exists i_comment. split; [vm_compute; left; reflexivity|]. split; [vm_compute; auto|reflexivity].
  - right. right. right. eexists. exists i_comment. split; [vm_compute; left; reflexivity|]. split; [vm_compute; auto|left; reflexivity].
  - right. right. right. eexists. exists (i_elem (ix "header") [] None []). split; [vm_compute; left; reflexivity|].
    split; [vm_compute; auto|right; vm_compute; reflexivity].
Qed.

(** *** C67 *)

Definition i_twice : document := i_doc
  [i_header [i_references "a" [i_schema]; i_resources [i_context "a"; i_unit "c1"; i_context "c1"]]]
  [i_text [("contextRef", "c1"); ("id", "a")]%string "one"; i_text [("contextRef", "c1"); ("id", "b")]%string "two";
   i_text [("contextRef", "c1"); ("id", "b")]%string "three"].
Example C67_example :
  named_elements [i_twice] = [i_references "a" [i_schema]] ++ i_context "a" :: [i_context "c1"; i_unit "c1"] /\
  i_facts [i_twice] = Ok (repeat (u "001") 4, [(Some (u "a"), u "one"); (Some (u "b"), u "three")], []).
Proof. split; vm_compute; reflexivity. Qed.
(** An element that does not become a fact does not count. *)
Theorem C67_dropped_refuted :
  i_facts [i_doc i_good [i_text [("id", "a")]%string "one"; i_text [("contextRef", "c1"); ("id", "a")]%string "two"]] =
  Ok ([u "500"], [(Some (u "a"), u "two")], []).
Proof. vm_compute. reflexivity. Qed.

Print Assumptions C64_facts_partial.
Print Assumptions C64_exact_partial.
Print Assumptions C64_kept.
Print Assumptions C64_characteristics.
Print Assumptions C66_reported.
Print Assumptions C66_fatal_refuted.
Print Assumptions C66_without_id_refuted.
Print Assumptions C66_survives.
Print Assumptions C67_resources.
Print Assumptions C67_facts_partial.
Print Assumptions C64_number_value.
Print Assumptions C65_nested_refuted.
Print Assumptions C65_differing_refuted.
Print Assumptions C64_prefix_refuted.
Print Assumptions C64_root_refuted.
Print Assumptions C65_value_refuted.
Print Assumptions C66_refuted.
Print Assumptions C67_dropped_refuted.
