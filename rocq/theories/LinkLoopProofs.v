(** The labels of a whole filing. *)
From Verif Require Import Base Regex QNameModel ErrBase ErrTable ErrModel CtxModel InlineModel NetModel NetSpec NetProofs NetLinkProofs NetProps
  LangModel DtsProofs LinkModel LinkSpec LinkProofs.
Local Open Scope nat_scope.
Local Opaque insert create.


Lemma factories_cases t :
  (factories t = [KLabel] /\ contains (u "labelLink") t = true /\ contains (u "presentationLink") t = false /\
     contains (u "calculationLink") t = false /\ contains (u "definitionLink") t = false) \/
  (~ In KLabel (factories t) /\ (contains (u "labelLink") t = false \/ contains (u "presentationLink") t = true \/
     contains (u "calculationLink") t = true \/ contains (u "definitionLink") t = true)).
Proof.
  unfold factories. destruct (contains (u "presentationLink") t); [right; split; [cbn; intuition discriminate|tauto]|].
  destruct (contains (u "calculationLink") t); [right; split; [cbn; intuition discriminate|tauto]|].
  destruct (contains (u "definitionLink") t); [right; split; [cbn; intuition discriminate|tauto]|].
  destruct (contains (u "labelLink") t); [left; tauto|]. right. split; [|tauto].
  destruct (contains (u "referenceLink") t); [cbn; intuition discriminate|]. destruct (contains (u "footnoteLink") t); [cbn; intuition discriminate|cbn; tauto].
Qed.
Lemma label_link_factories link t : x_tag link = Some t -> (label_link link <-> factories t = [KLabel]).
Proof.
  intros Et. unfold label_link. split.
  - intros (t' & Et' & H1 & H2 & H3 & H4). assert (t' = t) as -> by congruence. destruct (factories_cases t) as [[E _]|[_ H]]; [exact E|].
    apply contains_part in H1. rewrite <- contains_part in H2, H3, H4. destruct H as [H|[H|[H|H]]]; congruence.
  - intros E. exists t. split; [exact Et|]. destruct (factories_cases t) as [(_ & H1 & H2 & H3 & H4)|[H _]]; [|rewrite E in H; cbn in H; tauto].
    rewrite <- !contains_part, H1, H2, H3, H4. repeat split; congruence.
Qed.

Section Loop.
Variable element_str : xml -> str.
Variable number : str -> Q.
Variable find_id : str -> option found.
Variable edge_order : nat -> list edge -> list edge.
Variable root_order : nat -> list nat -> list nat.
Hypothesis Horders : orders edge_order root_order.

Notation run := (run_factory element_str number find_id edge_order root_order).

(** What a run of a factory consists of. *)
Lemma run_factory_inv k link outside role st ws st' : run k link outside role st = Ok (ws, st') ->
  exists arcs es1 entries es2 h nets dups added,
    link_arcs number [] (typed_below [u "arc"] link outside) (ls_errors st) = Ok (arcs, es1) /\
    link_entries element_str find_id 0 (link_parts link outside) es1 = Ok (entries, es2) /\
    parse_link k (edge_order (ls_runs st)) (root_order (ls_runs st)) arcs (map loc_of entries) = Ok (h, nets, dups) /\
    (if match k with KLabel => true | _ => false end then nets_labels h (label_of_entry entries) nets = Ok added else added = []) /\
    ws = map (fun rs => Net k role (map (Nat.add (length (ls_heap st))) rs)) nets /\
    st' = LState es2 (ls_heap st ++ map (shift_node (length (ls_heap st))) h) (ls_added st ++ added) (S (ls_runs st)).
Proof.
  unfold run_factory. intros H. apply bind_ok in H as ([arcs es1] & Ha & H). cbn [fst snd] in H. apply bind_ok in H as ([entries es2] & He & H). cbn [fst snd] in H.
  apply bind_ok in H as ([[h nets] dups] & Hp & H). cbv beta iota in H. apply bind_ok in H as (added & Hadd & H). cbv zeta in H. injection H as <- <-.
  exists arcs, es1, entries, es2, h, nets, dups, added. split; [exact Ha|]. split; [exact He|]. split; [exact Hp|]. split; [|split; reflexivity].
  destruct k; try (injection Hadd as <-; reflexivity). exact Hadd.
Qed.

Lemma run_label_added link outside role st ws st' : usual link -> (forall x around, inside link outside x around -> usual x) ->
  run KLabel link outside role st = Ok (ws, st') ->
  exists added ts, ls_added st' = ls_added st ++ added /\ NoDup ts /\
    (forall i role j, In (i, role, j) ts <-> exists loc al res ar, nth_error (link_parts link outside) i = Some (loc, al) /\ nth_error (link_parts link outside) j = Some (res, ar) /\
       (element_of link outside "locator" loc al /\ exists e, locates find_id loc e) /\
       (element_of link outside "resource" res ar /\ exists l, written_label res ar l) /\ arc_leads link outside role loc res) /\
    Forall2 (fun t p => exists loc al res ar, nth_error (link_parts link outside) (fst (fst t)) = Some (loc, al) /\ nth_error (link_parts link outside) (snd t) = Some (res, ar) /\
       locates find_id loc (fst p) /\ written_label res ar (snd p)) ts added.
Proof.
  intros Hu Hin H. apply run_factory_inv in H as (arcs & es1 & entries & es2 & h & nets & dups & added & Ha & He & Hp & Hadd & -> & ->).
  destruct Horders as [Heo Hro].
  destruct (label_link_added element_str number find_id link outside Hu Hin _ _ _ arcs entries Ha He _ _ (Heo _) (Hro _) _ _ _ _ Hp Hadd) as (ts & A & B & C).
  exists added, ts. auto.
Qed.

Lemma locates_fun loc e e' : locates find_id loc e -> locates find_id loc e' -> e = e'.
Proof. intros (h & Hh & H) (h' & Hh' & H'). assert (h' = h) as -> by congruence. destruct H, H'; congruence. Qed.
Lemma speaks_fun x around l l' : speaks x around l -> speaks x around l' -> l = l'.
Proof. unfold speaks. rewrite <- !elem_lang_some. congruence. Qed.
Lemma written_fun x around l l' : written_label x around l -> written_label x around l' -> l = l'.
Proof.
  intros (_ & A & B & C & D) (_ & A' & B' & C' & D'). destruct l, l'. cbn in *. pose proof (speaks_fun _ _ _ _ A A'). congruence.
Qed.

Lemma Forall2_in_l {A B} (R : A -> B -> Prop) l l' a : Forall2 R l l' -> In a l -> exists b, In b l' /\ R a b.
Proof. induction 1 as [|x y l l' Hxy _ IH]; intros Ha; [destruct Ha|]. destruct Ha as [->|Ha]; [exists y; cbn; auto|]. destruct (IH Ha) as (b & ? & ?). exists b. cbn. auto. Qed.
Lemma Forall2_in_r {A B} (R : A -> B -> Prop) l l' b : Forall2 R l l' -> In b l' -> exists a, In a l /\ R a b.
Proof. induction 1 as [|x y l l' Hxy _ IH]; intros Ha; [destruct Ha|]. destruct Ha as [->|Ha]; [exists x; cbn; auto|]. destruct (IH Ha) as (a & ? & ?). exists a. cbn. auto. Qed.

Lemma run_label_gives link outside role st ws st' : usual link -> (forall x around, inside link outside x around -> usual x) ->
  run KLabel link outside role st = Ok (ws, st') ->
  exists added, ls_added st' = ls_added st ++ added /\ forall e l, In (e, l) added <-> gives find_id link outside e l.
Proof.
  intros Hu Hin H. destruct (run_label_added _ _ _ _ _ _ Hu Hin H) as (added & ts & E & _ & Hts & F). exists added. split; [exact E|]. intros e l. split.
  - intros Hel. destruct (Forall2_in_r _ _ _ _ F Hel) as ([[i r] j] & Ht & loc & al & res & ar & A & B & C & D). cbn [fst snd] in *.
    apply Hts in Ht as (loc' & al' & res' & ar' & A' & B' & (C' & _) & (D' & _) & K). rewrite A in A'. rewrite B in B'. injection A' as <- <-. injection B' as <- <-.
    exists loc, al, res, ar, r. auto.
  - intros (loc & al & res & ar & r & A & B & C & D & K).
    destruct (in_part link outside Hu "locator" loc al (or_introl eq_refl) A) as (i & Pi). destruct (in_part link outside Hu "resource" res ar (or_intror eq_refl) B) as (j & Pj).
    assert (Ht : In (i, r, j) ts).
    { apply Hts. exists loc, al, res, ar. split; [exact Pi|]. split; [exact Pj|]. split; [eauto|]. split; [eauto|exact K]. }
    destruct (Forall2_in_l _ _ _ _ F Ht) as ([e' l'] & Hel & loc' & al' & res' & ar' & A' & B' & C' & D'). cbn [fst snd] in *.
    rewrite Pi in A'. rewrite Pj in B'. injection A' as <- <-. injection B' as <- <-.
    rewrite (locates_fun _ _ _ C C'), (written_fun _ _ _ _ D D'). exact Hel.
Qed.

Lemma run_other_added k link outside role st ws st' : k <> KLabel -> run k link outside role st = Ok (ws, st') -> ls_added st' = ls_added st.
Proof.
  intros Hk H. apply run_factory_inv in H as (arcs & es1 & entries & es2 & h & nets & dups & added & _ & _ & _ & Hadd & _ & ->). cbn [ls_added].
  destruct k; try congruence; rewrite Hadd; apply app_nil_r.
Qed.
Lemma runs_other_added : forall ks link outside role st ws st', ~ In KLabel ks ->
  run_factories element_str number find_id edge_order root_order ks link outside role st = Ok (ws, st') -> ls_added st' = ls_added st.
Proof.
  induction ks as [|k ks IH]; intros link outside role st ws st' Hk H; cbn [run_factories] in H; [injection H as _ <-; reflexivity|].
  apply bind_ok in H as ([w1 st1] & H1 & H). apply bind_ok in H as ([w2 st2] & H2 & H). cbn [fst snd] in *. injection H as _ <-.
  rewrite (IH _ _ _ _ _ _ (fun h => Hk (or_intror h)) H2). eapply run_other_added; [|exact H1]. intros ->. apply Hk. left. reflexivity.
Qed.

Lemma parse_xml_link_gives link outside role st ws st' : usual link -> (forall x around, inside link outside x around -> usual x) ->
  parse_xml_link element_str number find_id edge_order root_order link outside role st = Ok (ws, st') ->
  exists added, ls_added st' = ls_added st ++ added /\ forall e l, In (e, l) added <-> label_link link /\ gives find_id link outside e l.
Proof.
  intros Hu Hin H. unfold parse_xml_link in H. destruct (x_tag link) as [t|] eqn:Et; [|discriminate].
  destruct (factories_cases t) as [(E & _)|[Hn _]].
  - rewrite E in H. cbn [run_factories] in H. apply bind_ok in H as ([w1 st1] & H1 & H). injection H as _ <-. cbn [snd].
    destruct (run_label_gives _ _ _ _ _ _ Hu Hin H1) as (added & A & B). exists added. split; [exact A|]. intros e l. rewrite B, (label_link_factories link t Et). tauto.
  - exists []. rewrite app_nil_r. split.
    + destruct (factories t) as [|k ks] eqn:Ef; [apply bind_ok in H as (es & _ & H); injection H as _ <-; reflexivity|].
      eapply runs_other_added; [exact Hn|exact H].
    + intros e l. split; [intros []|]. intros [Hl _]. apply (label_link_factories link t Et) in Hl. rewrite Hl in Hn. cbn in Hn. tauto.
Qed.

Lemma links_loop_gives : forall l d st d' st', (forall p, In p l -> usual (fst p) /\ forall x around, inside (fst p) (snd p) x around -> usual x) ->
  links_loop element_str number find_id edge_order root_order l d st = Ok (d', st') ->
  exists added, ls_added st' = ls_added st ++ added /\ forall e lab, In (e, lab) added <->
    exists link outside, In (link, outside) l /\ xl "role" link <> None /\ label_link link /\ gives find_id link outside e lab.
Proof.
  induction l as [|[link outside] l IH]; intros d st d' st' Hu H; cbn [links_loop] in H.
  - injection H as _ <-. exists []. rewrite app_nil_r. split; [reflexivity|]. intros e lab. split; [intros []|intros (? & ? & [] & _)].
  - apply bind_ok in H as ([d1 st1] & H1 & H). cbn [fst snd] in H. destruct (Hu _ (or_introl eq_refl)) as [Hul Hin]. cbn [fst snd] in Hul, Hin.
    destruct (IH d1 st1 d' st' (fun p Hp => Hu p (or_intror Hp)) H) as (added2 & E2 & G2).
    unfold one_link in H1. cbn [fst snd] in H1. rewrite (opt_role link Hul) in H1. cbn [bind] in H1. destruct (xl "role" link) as [role|] eqn:Er.
    + apply bind_ok in H1 as ([ws st2] & H1 & E). cbn [fst snd] in E. injection E as <- <-. destruct (parse_xml_link_gives _ _ _ _ _ _ Hul Hin H1) as (added1 & E1 & G1).
      exists (added1 ++ added2). rewrite E2, E1, app_assoc. split; [reflexivity|]. intros e lab. rewrite in_app_iff, G1, G2. split.
      * intros [[A B]|(k & o & A & B)]; [exists link, outside|exists k, o]; (split; [cbn; auto|]); [split; [congruence|auto]|exact B].
      * intros (k & o & [[= -> ->]|A] & B & C); [left; exact C|right; eauto].
    + apply bind_ok in H1 as (es & _ & E). injection E as <- <-. exists added2. split; [exact E2|]. intros e lab. rewrite G2. split.
      * intros (k & o & A & B). exists k, o. cbn. auto.
      * intros (k & o & [[= <- <-]|A] & B & C); [congruence|eauto].
Qed.
End Loop.
