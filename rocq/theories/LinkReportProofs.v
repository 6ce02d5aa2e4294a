(** What is reported about links (C77, C78). *)
From Verif Require Import Base Regex QNameModel ErrBase ErrTable ErrModel CtxModel InlineModel NetModel NetSpec NetProofs NetLinkProofs NetProps
  LangModel DtsProofs LinkModel LinkSpec LinkProofs LinkLoopProofs LinkOrderProofs LinkNetProofs LinkDocProofs.
Local Open Scope nat_scope.
Local Opaque insert create u.

Lemma insert_made (es es' : repo xml) code x kw : insert es code (Some x) kw = Ok es' -> exists e, made (Report code x kw) e /\ es' = es ++ [e].
Proof.
  Transparent insert. unfold insert. Opaque insert. intros H. apply bind_ok in H as (e & He & H). injection H as <-. exists e. split; [exact He|reflexivity].
Qed.

Lemma typed_elements link outside types : usual link -> typed_below (map u types) link outside = elements_of link outside types.
Proof.
  intros Hu. unfold typed_below, elements_of. unfold usual in Hu. rewrite Hu. apply filter_ext. intros [x around]. cbn [fst]. unfold has_type, is_some_tag.
  change (to_clark XLINK (u "type")) with (clark XLINK (u "type")). fold (xl "type" x). destruct (x_tag x); [|reflexivity]. cbn [andb]. destruct (xl "type" x) as [t|]; [|reflexivity].
  induction types as [|t' l IH]; [reflexivity|]. cbn. rewrite IH. reflexivity.
Qed.

Lemma edge_eqb_spec a b : edge_eqb a b = true <-> a = b.
Proof.
  destruct a as [[a1 a2] a3], b as [[b1 b2] b3]. unfold edge_eqb. cbn. rewrite !andb_true_iff, !str_eqb_eq. split; [intros [[-> ->] ->]; reflexivity|intros [= -> -> ->]; auto].
Qed.

(** [es'] are [es] and then the reports [rs]. *)
Definition grows (es es' : repo xml) (rs : list report) : Prop := exists new, es' = es ++ new /\ Forall2 made rs new.
Lemma grows_nil es : grows es es [].
Proof. exists []. rewrite app_nil_r. split; [reflexivity|constructor]. Qed.
Lemma grows_app es es1 es2 rs1 rs2 : grows es es1 rs1 -> grows es1 es2 rs2 -> grows es es2 (rs1 ++ rs2).
Proof. intros (n1 & -> & F1) (n2 & -> & F2). exists (n1 ++ n2). rewrite app_assoc. split; [reflexivity|apply Forall2_app; assumption]. Qed.
Lemma grows_insert (es es' : repo xml) code x kw : insert es code (Some x) kw = Ok es' -> grows es es' [Report code x kw].
Proof. intros H. apply insert_made in H as (e & He & ->). exists [e]. split; [reflexivity|]. constructor; [exact He|constructor]. Qed.

(** The arcs seen, as elements. *)
Definition sees (earlier : list xml) (seen : list edge) : Prop :=
  Forall2 (fun x e => xl "from" x = Some (fst (fst e)) /\ xl "to" x = Some (snd (fst e)) /\ xl "arcrole" x = Some (snd e)) earlier seen.

Lemma arcs_reports number : forall l earlier seen es arcs es', (forall p, In p l -> usual (fst p)) -> sees earlier seen ->
  link_arcs number seen l es = Ok (arcs, es') -> exists rs, arcs_reported earlier (map fst l) rs /\ grows es es' rs.
Proof.
  induction l as [|[x around] l IH]; intros earlier seen es arcs es' Hu Hs H; cbn [link_arcs] in H.
  - injection H as _ <-. exists []. split; [constructor|apply grows_nil].
  - apply bind_ok in H as (a & Ha & H). apply bind_ok in H as (es1 & H1 & H). apply bind_ok in H as ([r es2] & H2 & H). injection H as _ <-. cbn [snd].
    apply arc_of_ok in Ha as (Hf & Ht & Hr); [|apply (Hu (x, around)); left; reflexivity].
    destruct (IH (x :: earlier) (edge_of a :: seen) es1 r es2) as (rs & R & G); [intros p Hp; apply Hu; right; exact Hp|constructor; [auto|exact Hs]|exact H2|].
    cbn [map fst]. destruct (existsb (edge_eqb (edge_of a)) seen) eqn:E.
    + apply existsb_exists in E as (e & He & Ee). apply edge_eqb_spec in Ee. subst e. destruct (Forall2_in_r _ _ _ _ Hs He) as (y & Hy & A & B & C). cbn in A, B, C.
      eexists. split; [eapply arcs_again; [exact Hy|split; [congruence|split; congruence]|exact Hf|exact Ht|exact R]|].
      change (?r :: rs) with ([r] ++ rs). eapply grows_app; [apply grows_insert, H1|exact G].
    + injection H1 as <-. exists rs. split; [|exact G]. constructor; [|exact R]. intros y Hy (A & B & C). destruct (Forall2_in_l _ _ _ _ Hs Hy) as (e & He & A' & B' & C').
      assert (existsb (edge_eqb (edge_of a)) seen = true); [|congruence]. apply existsb_exists. exists e. split; [exact He|]. apply edge_eqb_spec.
      destruct e as [[e1 e2] e3]. unfold edge_of. cbn in *. congruence.
Qed.

Section Reports.
Variable element_str : xml -> str.
Variable number : str -> Q.
Variable find_id : str -> option found.

Lemma no_part p t : contains p t = false -> ~ part_of p t.
Proof. intros H. rewrite <- contains_part. congruence. Qed.

Lemma part_reports i x around es o es' : usual x -> xl "type" x = Some (u "locator") \/ xl "type" x = Some (u "resource") ->
  link_object element_str find_id i x around es = Ok (o, es') -> exists rs, part_reported find_id x around rs /\ grows es es' rs.
Proof.
  intros Hu Ht H. destruct Ht as [Ht|Ht].
  - unfold link_object in H. apply bind_ok in H as (t & Ht' & H). apply (req_type x _ Hu) in Ht'.
    assert (t = u "locator") as -> by congruence. rewrite str_eqb_refl in H. apply bind_ok in H as (href & Hh & H). apply (req_href x _ Hu) in Hh.
    destruct (find_id (last (split_char (ch "#") href) [])) as [f|] eqn:E.
    + injection H as _ <-. exists []. split; [eapply locator_found; [exact Ht|exact Hh|unfold fragment; congruence]|apply grows_nil].
    + apply bind_ok in H as (es1 & H1 & H). injection H as _ <-. eexists. split; [eapply locator_lost; [exact Ht|exact Hh|exact E]|]. apply grows_insert, H1.
  - destruct (link_object_resource _ _ _ _ _ _ _ _ Hu Ht H) as (r & Hr & _). clear H. unfold parse_xml_resource in Hr.
    apply bind_ok in Hr as (t' & _ & Hr). destruct (negb (str_eqb t' (u "resource"))); [discriminate|].
    apply bind_ok in Hr as (lab & _ & Hr). apply bind_ok in Hr as (role & _ & Hr). destruct (x_tag x) as [t|] eqn:Et; [|discriminate].
    destruct (contains (u "label") t) eqn:E1; [apply contains_part in E1|apply no_part in E1].
    + destruct (elem_lang (x :: around)) as [lang|] eqn:El.
      * injection Hr as _ <-. exists []. split; [eapply resource_speaks; [exact Ht|exact Et|left; exact E1|apply elem_lang_some, El]|apply grows_nil].
      * apply bind_ok in Hr as (es1 & H1 & H). injection H as _ <-. eexists. split; [eapply label_silent; [exact Ht|exact Et|exact E1|intros z Hz; exact (proj1 (elem_lang_none _) El z Hz)]|apply grows_insert, H1].
    + destruct (contains (u "footnote") t) eqn:E2; [apply contains_part in E2|apply no_part in E2].
      * destruct (elem_lang (x :: around)) as [lang|] eqn:El.
        -- injection Hr as _ <-. exists []. split; [eapply resource_speaks; [exact Ht|exact Et|right; exact E2|apply elem_lang_some, El]|apply grows_nil].
        -- apply bind_ok in Hr as (es1 & H1 & H). injection H as _ <-. eexists. split; [eapply footnote_silent; [exact Ht|exact Et|exact E1|exact E2|intros z Hz; exact (proj1 (elem_lang_none _) El z Hz)]|apply grows_insert, H1].
      * destruct (contains (u "reference") t) eqn:E3; [apply contains_part in E3|apply no_part in E3].
        -- apply bind_ok in Hr as (c & _ & Hr). injection Hr as _ <-. exists []. split; [eapply reference_found; eassumption|apply grows_nil].
        -- apply bind_ok in Hr as (es1 & H1 & H). injection H as _ <-. eexists. split; [eapply other_resource; eassumption|apply grows_insert, H1].
Qed.

Lemma parts_reports : forall l i es entries es',
  (forall p, In p l -> usual (fst p) /\ (xl "type" (fst p) = Some (u "locator") \/ xl "type" (fst p) = Some (u "resource"))) ->
  link_entries element_str find_id i l es = Ok (entries, es') ->
  exists rs, Forall2 (fun p => part_reported find_id (fst p) (snd p)) l rs /\ grows es es' (concat rs).
Proof.
  induction l as [|[x around] l IH]; intros i es entries es' Hu H; cbn [link_entries] in H.
  - injection H as _ <-. exists []. split; [constructor|apply grows_nil].
  - apply bind_ok in H as (lab & _ & H). apply bind_ok in H as ([o es1] & Ho & H). apply bind_ok in H as ([r es2] & Hr & H). injection H as _ <-. cbn [snd] in *.
    destruct (Hu _ (or_introl eq_refl)) as [Hx Ht]. destruct (part_reports _ _ _ _ _ _ Hx Ht Ho) as (rs & R & G).
    destruct (IH _ _ _ _ (fun p Hp => Hu p (or_intror Hp)) Hr) as (rss & RR & GG). exists (rs :: rss). split; [constructor; assumption|].
    cbn [concat]. eapply grows_app; eassumption.
Qed.

Section Runs.
Variable edge_order : nat -> list edge -> list edge.
Variable root_order : nat -> list nat -> list nat.

Lemma run_reports k link outside role st ws st' : usual link -> (forall x around, inside link outside x around -> usual x) ->
  run_factory element_str number find_id edge_order root_order k link outside role st = Ok (ws, st') ->
  exists rs, inside_reported find_id link outside rs /\ grows (ls_errors st) (ls_errors st') rs.
Proof.
  intros Hu Hin H. apply run_factory_inv in H as (arcs & e1 & entries & e2 & h & nets & dups & added & A & B & _ & _ & _ & ->). cbn [ls_errors].
  change [u "arc"] with (map u ["arc"%string]) in A. assert (Hall : forall types p, In p (typed_below (map u types) link outside) -> usual (fst p)).
  { intros types [x around] Hp. apply (in_typed types link outside x around Hu) in Hp as (t & _ & Hp & _). apply (Hin x around Hp). }
  destruct (arcs_reports number _ [] [] _ _ _ (Hall _) (Forall2_nil _) A) as (ra & RA & GA).
  unfold link_parts in B. change [u "resource"; u "locator"] with (map u ["resource"; "locator"]%string) in B.
  assert (Hty : forall p, In p (typed_below (map u ["resource"; "locator"]%string) link outside) ->
    usual (fst p) /\ (xl "type" (fst p) = Some (u "locator") \/ xl "type" (fst p) = Some (u "resource"))).
  { intros p Hp. split; [exact (Hall _ p Hp)|]. destruct p as [x around]. apply (in_typed _ link outside x around Hu) in Hp as (t & Ht & Hp). cbn [fst].
    destruct Ht as [<-|[<-|[]]]; [right|left]; apply Hp. }
  destruct (parts_reports _ _ _ _ _ Hty B) as (rp & RP & GP).
  rewrite (typed_elements link outside _ Hu) in RA. rewrite (typed_elements link outside _ Hu) in RP. exists (ra ++ concat rp). split; [exists ra, rp; auto|]. eapply grows_app; eassumption.
Qed.

Lemma locator_resource : u "locator" <> u "resource".
Proof. vm_compute. discriminate. Qed.
Lemma same_reports link outside rs rs' : inside_reported find_id link outside rs -> inside_reported find_id link outside rs' -> rs = rs'.
Proof.
  intros (ra & rp & A & B & ->) (ra' & rp' & A' & B' & ->). f_equal.
  - clear B B'. revert ra' A'. induction A as [e|e x l rs Hn A IH|e x l rs y from to Hy Hs Hf Ht A IH]; intros ra' A'; inversion A'; subst; [reflexivity|auto|exfalso; eapply Hn; eauto|exfalso; eapply H2; eauto|].
    repeat match goal with H : xl ?a ?b = Some ?c, H' : xl ?a ?b = Some ?d |- _ => assert (c = d) by congruence; subst; clear H' end. f_equal. auto.
  - f_equal. clear A A'. revert rp' B'. induction B as [|p r l rs Hp _ IH]; intros rp' B'; inversion B' as [|? r' ? rs' Hp' Hrest]; subst; [reflexivity|]. f_equal; [|auto].
    assert (Hls := locator_resource).
    assert (Hsp : forall x around lang, speaks x around lang -> silent x around -> False).
    { intros x around lang (pre & y & post & E & Hy & _) Hs. specialize (Hs y). rewrite E in Hs. specialize (Hs (in_elt _ _ _)). congruence. }
    destruct Hp, Hp'; try reflexivity; try congruence;
      try (match goal with H : x_tag _ = Some ?a, H' : x_tag _ = Some ?b |- _ => assert (a = b) by congruence; subst end);
      try (exfalso; tauto); try (exfalso; eapply Hsp; eassumption); try reflexivity.
Qed.

Lemma link_reports link outside role st ws st' : usual link -> (forall x around, inside link outside x around -> usual x) -> xl "role" link <> None ->
  parse_xml_link element_str number find_id edge_order root_order link outside role st = Ok (ws, st') ->
  exists rs, link_reported find_id link outside rs /\ grows (ls_errors st) (ls_errors st') rs.
Proof.
  intros Hu Hin Hr H. unfold parse_xml_link in H. destruct (x_tag link) as [t|] eqn:Et; [|discriminate].
  assert (Hk := fun k => link_kind_factories link t k Et).
  assert (Hc : factories t = [] \/ factories t = [KPhysicalDefinition; KLogicalDefinition] \/ exists k, factories t = [k] /\ k <> KLogicalDefinition).
  { unfold factories. repeat match goal with |- context [contains ?a ?b] => destruct (contains a b) end; (left; reflexivity) || (right; left; reflexivity) || (right; right; eexists; split; [reflexivity|discriminate]). }
  destruct Hc as [E|[E|(k & E & Hn)]].
  - rewrite E in H, Hk. apply bind_ok in H as (es & H & E'). injection E' as _ <-. eexists. split; [eapply no_kind; [exact Hr|exact Et|intros k Hkk; apply Hk in Hkk; destruct Hkk]|].
    apply grows_insert, H.
  - rewrite E in H, Hk. cbn [run_factories] in H. apply bind_ok in H as ([w1 s1] & H1 & H). apply bind_ok in H as ([w2 s2] & H2 & H). injection H as _ <-. cbn [fst snd] in *.
    apply bind_ok in H2 as ([w3 s3] & H2 & H3). injection H3 as _ <-. cbn [fst snd] in *.
    destruct (run_reports _ _ _ _ _ _ _ Hu Hin H1) as (rs & R & G). destruct (run_reports _ _ _ _ _ _ _ Hu Hin H2) as (rs' & R' & G').
    rewrite (same_reports _ _ _ _ R' R) in *. exists (rs ++ rs). split; [|eapply grows_app; eassumption]. apply read_twice; [exact Hr|apply Hk; cbn; auto|exact R].
  - rewrite E in H, Hk. cbn [run_factories] in H. apply bind_ok in H as ([w1 s1] & H1 & H). injection H as _ <-. cbn [fst snd] in *.
    destruct (run_reports _ _ _ _ _ _ _ Hu Hin H1) as (rs & R & G). exists rs. split; [|exact G]. apply (read_once _ _ _ k); [exact Hr|apply Hk; cbn; auto| |exact R].
    intros Hl. apply Hk in Hl as [Hl|[]]. congruence.
Qed.

Lemma loop_reports : forall l d st d' st', (forall p, In p l -> usual (fst p) /\ forall x around, inside (fst p) (snd p) x around -> usual x) ->
  links_loop element_str number find_id edge_order root_order l d st = Ok (d', st') ->
  exists rss, Forall2 (fun p => link_reported find_id (fst p) (snd p)) l rss /\ grows (ls_errors st) (ls_errors st') (concat rss).
Proof.
  induction l as [|[link outside] l IH]; intros d st d' st' Hu H; cbn [links_loop] in H.
  - injection H as _ <-. exists []. split; [constructor|apply grows_nil].
  - apply bind_ok in H as ([d1 st1] & H1 & H). cbn [fst snd] in H. destruct (Hu _ (or_introl eq_refl)) as [Hul Hin]. cbn [fst snd] in Hul, Hin.
    destruct (IH d1 st1 d' st' (fun p Hp => Hu p (or_intror Hp)) H) as (rss & RR & GG).
    assert (G1 : exists rs, link_reported find_id link outside rs /\ grows (ls_errors st) (ls_errors st1) rs).
    { unfold one_link in H1. cbn [fst snd] in H1. rewrite (opt_role link Hul) in H1. cbn [bind] in H1. destruct (xl "role" link) as [role|] eqn:Er.
      - apply bind_ok in H1 as ([ws st2] & H1 & E). cbn [fst snd] in E. injection E as _ <-. eapply link_reports; [exact Hul|exact Hin|congruence|exact H1].
      - apply bind_ok in H1 as (es & H1 & E). injection E as _ <-. eexists. split; [apply no_role, Er|apply grows_insert, H1]. }
    destruct G1 as (rs & R & G). exists (rs :: rss). split; [constructor; assumption|]. cbn [concat]. eapply grows_app; eassumption.
Qed.

Lemma standard_iff p : usual (fst p) -> (is_standard p = true <-> looks_standard p).
Proof.
  intros Hu. unfold is_standard, looks_standard. rewrite (opt_role _ Hu). destruct (xl "role" (fst p)) as [r|]; [|split; [discriminate|intros (r & [=] & _)]].
  rewrite contains_part. split; [eauto|intros (r' & [= ->] & H); exact H].
Qed.
Lemma two_parts l : (forall p, In p l -> usual (fst p)) -> in_two_parts looks_standard l (filter is_standard l) (filter (fun p => negb (is_standard p)) l).
Proof.
  induction l as [|p l IH]; intros Hu; [constructor|]. assert (Hs := standard_iff p (Hu p (or_introl eq_refl))). cbn. specialize (IH (fun q Hq => Hu q (or_intror Hq))).
  destruct (is_standard p); cbn; constructor; auto; [apply Hs; reflexivity|]. rewrite <- Hs. discriminate.
Qed.

Lemma filing_reports fuel shuffle docs es ws st : all_usual docs ->
  parse_networks element_str number find_id edge_order root_order fuel shuffle docs es = Ok (ws, st) ->
  exists l l1 l2 rss new, (forall x around, In (x, around) l <-> extended_link docs x around) /\ l = all_links docs /\ in_two_parts looks_standard l l1 l2 /\
    Forall2 (fun p => link_reported find_id (fst p) (snd p)) (l1 ++ l2) rss /\
    ls_errors st = es ++ new /\ Forall2 made (concat rss) new.
Proof.
  intros Husual H. assert (Hu : forall p, In p (all_links docs) -> usual (fst p) /\ forall x around, inside (fst p) (snd p) x around -> usual x).
  { intros [link outside] Hp. apply in_all_links in Hp. exact (link_usual docs Husual link outside Hp). }
  unfold parse_networks in H. apply bind_ok in H as ([d s] & H & H'). apply bind_ok in H' as (c & _ & H'). injection H' as _ <-. cbn [fst snd ls_errors].
  destruct (loop_reports _ _ _ _ _ (fun p Hp => Hu p (proj1 (in_sorted_links docs p) Hp)) H) as (rss & R & new & E & F).
  exists (all_links docs), (filter is_standard (all_links docs)), (filter (fun p => negb (is_standard p)) (all_links docs)), rss, new.
  split; [intros x around; apply in_all_links|]. split; [reflexivity|]. split; [apply two_parts; intros p Hp; apply Hu, Hp|]. split; [exact R|]. split; [exact E|exact F].
Qed.
End Runs.
End Reports.
