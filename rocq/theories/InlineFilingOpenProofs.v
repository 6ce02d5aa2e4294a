(** Proofs about which inline filings can be read to their end (C108). *)
From Coq Require Import QArith Permutation Lia.
From Verif Require Import Base QNameModel QNameProofs ErrBase ErrTable ErrModel NumModel DateModel CtxModel CtxSpec CtxProofs InlineModel InlineSpec InlineReportSpec
  InlineProofs InlineStepProofs InlineDocProofs InlineProps InlineOpenProofs InlineOpenProps InlineFrame InlineFilingModel InlineFilingSpec InlineFilingProofs InlineContProofs
  InlineFootProofs InlineFilingOpenSpec.
From Verif Require CombineOpenProofs NetModel LinkModel LinkProofs TextModel TextSpec TextProofs TextProps FootModel FootSpec FootProofs FootProps FootOpenSpec FootOpenProofs.
Local Open Scope nat_scope.

(** ** Continuations *)

Section Kinds.
Context {A : Type}.
Lemma mk_cont_id x : exists e, create (elem := A) "IXBRL_CONTINUATION_WITHOUT_ID" x [] = Ok e. Proof. recordable. Qed.
Lemma mk_cont_dup x t : exists e, create (elem := A) "IXBRL_DUPLICATE_ELEMENT_ID" x [(u "id",t)] = Ok e. Proof. recordable. Qed.
Lemma mk_reused x t v : exists e, create (elem := A) "IXBRL_REUSED_CONTINUATION" x [(u "id",t);(u "element_id", v)] = Ok e. Proof. recordable. Qed.
Lemma mk_invalid x t v : exists e, create (elem := A) "IXBRL_INVALID_CONTINUATION_ID" x [(u "id",t);(u "element_id", v)] = Ok e. Proof. recordable. Qed.
Lemma mk_descendant x t v : exists e, create (elem := A) "IXBRL_INVALID_DESCENDANT_IN_CONTINUATION_CHAIN" x [(u "descendant_id",t);(u "parent_id", v)] = Ok e. Proof. recordable. Qed.
Lemma mk_unused x t : exists e, create (elem := A) "IXBRL_UNUSED_CONTINUATION_ELEMENTS" x [(u "element_ids",t)] = Ok e. Proof. recordable. Qed.
End Kinds.
Local Opaque u create insert.

Lemma report_creatable e all conts r : Forall (fun k => exists x, create (fst (fst k)) (Some (snd (fst k))) (snd k) = Ok x) (chain_report e all conts r).
Proof.
  destruct r as [k|k i|k i|k i|k o|ids]; cbn [chain_report].
  - repeat constructor. apply mk_cont_id.
  - repeat constructor. apply mk_cont_dup.
  - repeat constructor. apply mk_reused.
  - repeat constructor. apply mk_invalid.
  - repeat constructor. apply mk_descendant.
  - destruct (FootModel.e_set e ids) as [|i rest]; [constructor|]. destruct (dict_get _ _ _); [|constructor]. repeat constructor. apply mk_unused.
Qed.
Lemma kont_ends e fuel roots ids : continuations_end (continuations e fuel roots) ids <-> exists r, chains fuel roots ids = Some r.
Proof.
  unfold continuations_end, continuations. destruct (chains fuel roots ids) as [[[cs errs] tk]|].
  - split; [eauto|]. intros _. eexists. eexists. split; [reflexivity|]. induction errs as [|r errs IH]; cbn [flat_map]; [constructor|].
    apply Forall_app. split; [apply report_creatable|exact IH].
  - split; [intros (ks & tk & H & _); discriminate H|intros (r & H); discriminate H].
Qed.

Section Conts.
Variable roots : list tree.
Hypothesis Hprefix : forall p, In p (fact_places roots) -> usual_prefix p.
Definition enough : nat := S (length (cont_places roots)).

Lemma goes_follows conts all o qs : goes_on conts o qs -> exists chain d, TextSpec.follows (map (celem_of all) conts) o chain d.
Proof.
  induction 1 as [|id Hn|id q qs Hq H (chain & d & IH)].
  - exists [], None. constructor.
  - exists [], (Some id). constructor. destruct (TextSpec.target (map (celem_of all) conts) id) as [c|] eqn:E; [|reflexivity].
    apply target_last in E as (q & _ & Hq). apply last_with_in in Hq as [K1 K2]. destruct (Hn q K1 K2).
  - destruct (TextSpec.target (map (celem_of all) conts) id) as [c|] eqn:E.
    + exists (c :: chain), d. econstructor; [exact E|]. apply target_last in E as (q' & -> & Hq'). rewrite ce_cont_of.
      rewrite (last_with_same _ _ _ _ Hq' Hq). exact IH.
    + apply last_with_in in Hq as [K1 K2]. destruct (target_nobody _ _ _ E q K1 K2).
Qed.
Lemma follows_all : texts_end roots <->
  forall c, In c (TextSpec.continuable (map (celem_of (all_places roots)) (fact_places roots)) (map (celem_of (all_places roots)) (note_places roots))) ->
    exists chain d, TextSpec.follows (map (celem_of (all_places roots)) (cont_places roots)) (TextModel.ce_cont c) chain d.
Proof.
  rewrite (continuables_are roots Hprefix). split.
  - intros H c Hc. apply in_map_iff in Hc as (p & <- & Hp). destruct (H p Hp) as (qs & Hq). rewrite ce_cont_of. eapply goes_follows, Hq.
  - intros H p Hp. destruct (H _ (in_map _ _ _ Hp)) as (chain & d & Hf). apply follows_goes in Hf as (qs & Hq & _). rewrite ce_cont_of in Hq. eauto.
Qed.
Lemma ends_iff fuel taken : enough <= fuel -> ((exists r, chains fuel roots taken = Some r) <-> texts_end roots).
Proof.
  intros Hf. rewrite follows_all. split.
  - intros (r & H). apply (TextProps.C15_ends_iff _ _ _ taken). exists fuel, r. exact H.
  - intros H. destruct (TextProps.C15_chains fuel _ _ _ taken H) as (cs & errs & tk & E & _); [rewrite map_length; exact Hf|]. exists (cs, errs, tk). exact E.
Qed.
Lemma ends_some fuel taken r : chains fuel roots taken = Some r -> texts_end roots.
Proof. intros H. apply follows_all, (TextProps.C15_ends_iff _ _ _ taken). exists fuel, r. exact H. Qed.
Lemma enough_same fuel taken r : chains fuel roots taken = Some r -> chains enough roots taken = Some r.
Proof.
  intros H. destruct (proj2 (ends_iff enough taken (le_n _)) (ends_some _ _ _ H)) as (r' & H'). rewrite H'. f_equal. eapply chains_same; eassumption.
Qed.
Lemma documents_enough tostring fuel r : chains fuel roots [] = Some r -> documents tostring fuel roots = documents tostring enough roots.
Proof. intros H. unfold documents, chains_of. rewrite H, (enough_same _ _ _ H). reflexivity. Qed.
Lemma chains_enough fuel r : chains fuel roots [] = Some r -> chains_of fuel roots = chains_of enough roots.
Proof. intros H. unfold chains_of. rewrite H, (enough_same _ _ _ H). reflexivity. Qed.
Lemma any_taken fuel taken : enough <= fuel -> texts_end roots -> exists r, chains fuel roots taken = Some r /\ chains enough roots taken = Some r.
Proof. intros Hf H. apply (ends_iff fuel taken Hf) in H as (r & H). exists r. split; [exact H|eapply enough_same, H]. Qed.
End Conts.

Lemma chains_taken fuel roots taken taken' : (exists r, chains fuel roots taken = Some r) -> exists r, chains fuel roots taken' = Some r.
Proof.
  intros (r & H). revert H. unfold chains, TextModel.create_continuation_chains.
  destruct (TextModel.check_continuation_ids _ taken) as [e1 t1]. destruct (TextModel.check_continuation_ids _ taken') as [e2 t2].
  destruct (TextModel.chains_loop _ _ _ _ _ e1) as [[[cs used] errs]|] eqn:E; [|discriminate]. intros _.
  destruct (chains_loop_any _ _ _ _ _ _ _ E [] e2) as ([[cs' used'] errs'] & -> & _). eexists. reflexivity.
Qed.

(** ** Footnotes *)

Section Notes.
Variable e : FootModel.env.
Variable tostring : TextModel.xml -> str.
Variable all : list place.
Variable cs : list (TextModel.celem * list TextModel.celem).

Lemma note_given p n : note_of tostring all cs p = Ok n -> FootModel.given (FootModel.ne_id n) = FootModel.given (attr (p_xml p) (u "id")).
Proof. intros H. apply note_of_ok in H as [-> _]. reflexivity. Qed.
Lemma keys_set {V} (d : list (str * V)) k v i : In i (map fst (dict_set str_eqb d k v)) <-> i = k \/ In i (map fst d).
Proof.
  induction d as [|[j w] d IH]; cbn [dict_set map fst In]; [intuition congruence|].
  destruct (str_eqb_spec j k) as [->|N]; cbn [map fst In]; [intuition congruence|]. rewrite IH. intuition congruence.
Qed.
Lemma notes_run ps : forall ns taken s,
  (runs (read_notes e tostring all cs ps ns taken) s <-> forall p, In p ps -> exists n, note_of tostring all cs p = Ok n) /\
  forall ns' s', read_notes e tostring all cs ps ns taken s = Ok (ns', s') ->
    forall id, In id (map fst ns') <-> In id (map fst ns) \/ exists p, In p ps /\ has_id p id.
Proof.
  induction ps as [|p ps IH]; intros ns taken s; cbn [read_notes].
  - split; [split; [intros _ p []|intros _; eexists; reflexivity]|]. intros ns' s' [= <- <-] id. split; [auto|]. intros [H|(p & [] & _)]. exact H.
  - unfold runs, mbind, lift. destruct (note_of tostring all cs p) as [n|ex] eqn:En.
    2:{ split; [split; [intros (r & H); discriminate H|intros H; destruct (H p (or_introl eq_refl)) as (n & K); congruence]|intros ns' s' [=]]. }
    destruct (FootProps.parse_footnote_spec e n [] taken) as (es' & taken' & o & -> & -> & _). cbn [fst snd]. unfold add_errors. cbn [fst snd].
    set (ns1 := match option_map _ _ with Some _ => _ | None => _ end).
    destruct (IH ns1 taken' (State (s_errors s ++ map (about (p_xml p)) es') (s_chars s) (s_aspects s) (s_facts s))) as [R1 R2]. split.
    + unfold runs in R1. rewrite R1. split; [intros H q [<-|Hq]; [eauto|apply H, Hq]|intros H q Hq; apply H; right; exact Hq].
    + intros ns' s' H id. rewrite (R2 _ _ H id). unfold ns1. rewrite (note_given _ _ En).
      assert (G := has_given p id). destruct (FootModel.given (attr (p_xml p) (u "id"))) as [j|]; cbn [option_map].
      * rewrite keys_set. split.
        -- intros [[->|K]|(q & Hq & K)]; [right; exists p; split; [left; reflexivity|apply G; reflexivity]|auto|right; exists q; split; [right|]; assumption].
        -- intros [K|(q & [<-|Hq] & K)]; [auto|apply G in K; injection K as ->; auto|right; eauto].
      * split; [intros [K|(q & Hq & K)]; [auto|right; exists q; split; [right|]; assumption]|].
        intros [K|(q & [<-|Hq] & K)]; [auto|apply G in K; discriminate K|right; eauto].
Qed.
End Notes.

Lemma note_reads tostring fuel roots r p : chains fuel roots [] = Some r -> In p (note_places roots) ->
  ((exists n, note_of tostring (all_places roots) (chains_of fuel roots) p = Ok n) <->
   forall id ts, has_id p id -> parts (cont_places roots) p ts -> contains_no_comment ts).
Proof.
  intros Hr Hp. assert (P := chain_parts fuel roots r p Hr (or_intror Hp)).
  assert (U : forall ts, parts (cont_places roots) p ts -> ts = p_tree p :: chain_trees (all_places roots) (chains_of fuel roots) (p_key p)).
  { intros ts (qs & Hq & ->). destruct P as (qs' & Hq' & ->). rewrite (goes_on_same _ _ _ Hq _ Hq'). reflexivity. }
  unfold note_of. assert (G : forall id, _) by exact (has_given p). destruct (FootModel.given (attr (p_xml p) (u "id"))) as [i|].
  - set (ts0 := p_tree p :: _) in *. assert (C := TextProofs.chain_content (marked (p_tree p)) (map marked (chain_trees (all_places roots) (chains_of fuel roots) (p_key p)))).
    change (marked (p_tree p) :: map marked (chain_trees (all_places roots) (chains_of fuel roots) (p_key p))) with (map marked ts0) in C.
    assert (Hi : has_id p i) by (apply G; reflexivity). split.
    + intros (n & H) id ts _ Ht. rewrite (U ts Ht). unfold contains_no_comment. destruct (TextSpec.has_remark _); [|reflexivity]. rewrite C in H. discriminate H.
    + intros H. specialize (H i ts0 Hi P). unfold contains_no_comment in H. rewrite H in C. destruct C as (x & -> & _). cbn [bind]. eauto.
  - split; [|cbn [bind]; eauto]. intros _ id ts K. apply G in K. discriminate K.
Qed.

Section Relationships.
Variable e : FootModel.env.
Hypothesis He : FootSpec.lists_sets (FootModel.e_set e).

Lemma arcs_run ns fs xs : forall s,
  (runs (read_arcs e ns fs xs) s <-> forall x, In x xs -> FootOpenSpec.has_order e (rel_of x)) /\
  forall arcs s', read_arcs e ns fs xs s = Ok (arcs, s') -> Forall2 (FootOpenProofs.reads_as e) (map rel_of xs) arcs.
Proof.
  induction xs as [|x xs IH]; intros s; cbn [read_arcs].
  - split; [split; [intros _ x []|intros _; eexists; reflexivity]|]. intros arcs s' [= <- <-]. constructor.
  - destruct (FootOpenProofs.relationship_iff e ns fs (rel_of x) []) as [R1 R2]. unfold runs, mbind, lift.
    destruct (FootModel.parse_relationship e ns fs (rel_of x) []) as [[a es']|ex].
    2:{ split; [split; [intros (r & H); discriminate H|intros H; destruct (proj1 R1 (H x (or_introl eq_refl))) as (r & K); discriminate K]|intros arcs s' [=]]. }
    unfold add_errors. cbn [fst snd]. set (s1 := State _ _ _ _). destruct (IH s1) as [I1 I2]. unfold runs in I1.
    destruct (read_arcs e ns fs xs s1) as [[arcs s2]|ex].
    + split.
      * split; [|intros _; eexists; reflexivity]. intros _ y [<-|Hy]; [apply R1; eauto|]. apply I1; eauto.
      * intros arcs' s' [= <- <-]. cbn [map]. constructor; [eapply R2; reflexivity|eapply I2; reflexivity].
    + split; [|intros arcs s' [=]]. split; [intros (r & H); discriminate H|]. intros H. exfalso.
      destruct (proj2 I1 (fun y Hy => H y (or_intror Hy))) as (r & K). discriminate K.
Qed.

(** What the relationships need depends on the identifiers of footnotes and the values of facts only. *)
Lemma group_same ns ns' fs fs' xs l r : (forall id, In id (map fst ns) <-> In id (map fst ns')) ->
  (forall i, dict_get str_eqb fs i = dict_get str_eqb fs' i) ->
  FootOpenSpec.group_fine e ns fs xs l r -> FootOpenSpec.group_fine e ns' fs' xs l r.
Proof.
  intros Hn Hf H x Hx Hg. destruct (H x Hx Hg) as (A & B & C).
  assert (K : forall i, In i (map fst fs) -> In i (map fst fs')).
  { intros i Hi. destruct (dict_get str_eqb fs' i) as [v|] eqn:E; [apply (dict_get_in _ str_eqb_spec), (in_map fst) in E; exact E|].
    rewrite <- Hf in E. apply (dict_get_none _ str_eqb_spec) in E. destruct (E Hi). }
  assert (J : forall i, FootOpenSpec.judged ns fs i -> FootOpenSpec.judged ns' fs' i).
  { intros i [Hi|(t & Ht & Hi)]; [left; apply Hn, Hi|right; exists t; rewrite <- Hf; auto]. }
  assert (T : forall i, FootOpenSpec.true_of ns fs i -> FootOpenSpec.true_of ns' fs' i).
  { intros i [Hi|(t & Ht & Hi)]; [left; apply Hn, Hi|right; exists t; rewrite <- Hf; auto]. }
  split; [|split].
  - intros i Hi. destruct (A i Hi) as [P|P]; auto.
  - intros i Hi. apply J, B, Hi.
  - intros from to H1 H2. destruct (C from to H1 H2). auto.
Qed.
End Relationships.

(** ** The values of facts *)

Lemma last_cons {A} (P : A -> Prop) x l y : last_with P (x :: l) y <-> last_with P l y \/ x = y /\ P x /\ forall z, In z l -> ~ P z.
Proof.
  split.
  - intros ([|w pre] & post & E & Py & H); cbn [app] in E; injection E as -> ->; [right; auto|]. left. exists pre, post. auto.
  - intros [(pre & post & -> & Py & H)|(-> & Px & H)]; [exists (x :: pre), post; auto|exists [], l; auto].
Qed.

Section Values.
Variable rep : repository.
Variable py_float : str -> option bool.
Variable era_valid : list (part * str) -> res bool.
Variable contexts : list xml.
Variable units : list characteristic.
Variables entity_is period_is explicit_is typed_is : xml -> option characteristic -> Prop.
Notation outcome := (inline_outcome rep py_float era_valid contexts units entity_is period_is explicit_is typed_is).
Notation value_of := (value_of py_float era_valid).
Notation becomes := (becomes rep contexts).

Lemma value_same n v v' : value_of n v -> value_of n v' -> v = v'.
Proof.
  intros [[T H]|[T H]] [[T' H']|[T' H']]; try (rewrite T in T'; exfalso; first [exact (two_tags T')|exact (two_tags (eq_sym T'))]).
  - assert (N : forall n, has_nothing n -> shows_text n = true -> False) by (intros m (K & _) K'; congruence).
    assert (N' : forall n, has_nothing n -> has_inside n = true -> False) by (intros m (_ & K & _) K'; congruence).
    destruct H; destruct H'; try reflexivity; try contradiction; try (exfalso; eauto; fail); congruence.
  - destruct H as (c & k & E & F). destruct H' as (c' & k' & E' & F'). rewrite E in E'. injection E' as <-. rewrite F in F'. injection F' as ->. reflexivity.
Qed.
Lemma outcome_made n f es : outcome n (Some f, es) -> becomes n /\ if_id f = attr (n_el n) (u "id") /\ value_of n (f_value (if_fact f)).
Proof.
  intros (el & us & cid & xc & c & H1 & _ & H3 & (pre & post & -> & H4 & _) & _ & _ & H5 & H6). split; [|split; [exact H5|]].
  - split; [eauto|]. exists cid, xc. split; [exact H3|]. split; [apply in_elt|exact H4].
  - destruct H6 as [(A & B & _)|(A & B & _)]; [left|right]; auto.
Qed.
Lemma outcome_none n es : outcome n (None, es) -> ~ becomes n.
Proof.
  intros H ((e & He) & cid & xc & Hr & Hin & Hu). destruct H as [Hn _|name Hn Hc _|Hr' _|cid' Hr' Hc _].
  - destruct He as (name & q & E & _). congruence.
  - exact (Hc _ He).
  - congruence.
  - rewrite Hr in Hr'. injection Hr' as <-. exact (Hc xc Hin Hu).
Qed.

Lemma no_such i nodes os : Forall2 outcome nodes os ->
  ((forall z, In z (somes (map fst os)) -> if_id z <> Some i) <-> forall n, In n nodes -> ~ (becomes n /\ attr (n_el n) (u "id") = Some i)).
Proof.
  induction 1 as [|n [o es] nodes os H _ IH]; [split; intros _ x []|]. destruct o as [f|].
  - apply outcome_made in H as (H1 & H2 & _). cbn [map fst somes]. split.
    + intros K m [<-|Hm] [K1 K2]; [apply (K f (or_introl eq_refl)); congruence|]. apply (proj1 IH (fun z Hz => K z (or_intror Hz)) m Hm). auto.
    + intros K z [<-|Hz] E; [apply (K n (or_introl eq_refl)); split; [exact H1|congruence]|]. exact (proj2 IH (fun m Hm => K m (or_intror Hm)) z Hz E).
  - apply outcome_none in H. cbn [map fst somes]. rewrite IH. split; [|auto using in_cons]. intros K m [<-|Hm]; [intros [K1 _]; auto|auto].
Qed.
Lemma last_says i nodes os : Forall2 outcome nodes os ->
  (forall f, last_with (fun g => if_id g = Some i) (somes (map fst os)) f -> says rep py_float era_valid contexts nodes i (f_value (if_fact f))) /\
  (forall v, says rep py_float era_valid contexts nodes i v -> exists f, last_with (fun g => if_id g = Some i) (somes (map fst os)) f /\ f_value (if_fact f) = v).
Proof.
  induction 1 as [|n [o es] nodes os H F IH].
  - split; [intros f ([|x pre] & post & E & _); discriminate E|intros v (n & ([|x pre] & post & E & _) & _); discriminate E].
  - destruct IH as [I1 I2]. destruct o as [f|]; cbn [map fst somes].
    + apply outcome_made in H as (H1 & H2 & H3). split.
      * intros g Hg. apply last_cons in Hg as [Hg|(<- & Hi & Hn)].
        -- destruct (I1 g Hg) as (m & Hm & Hv). exists m. split; [apply last_cons; left; exact Hm|exact Hv].
        -- exists n. split; [|exact H3]. apply last_cons. right. split; [reflexivity|]. split; [split; [exact H1|congruence]|]. apply (no_such i _ _ F), Hn.
      * intros v (m & Hm & Hv). apply last_cons in Hm as [Hm|(<- & [_ Hi] & Hn)].
        -- destruct (I2 v (ex_intro _ m (conj Hm Hv))) as (g & Hg & E). exists g. split; [apply last_cons; left; exact Hg|exact E].
        -- exists f. split; [|exact (value_same _ _ _ H3 Hv)]. apply last_cons. right. split; [reflexivity|]. split; [congruence|]. apply (no_such i _ _ F), Hn.
    + apply outcome_none in H. split.
      * intros g Hg. destruct (I1 g Hg) as (m & Hm & Hv). exists m. split; [apply last_cons; left; exact Hm|exact Hv].
      * intros v (m & Hm & Hv). apply last_cons in Hm as [Hm|(<- & [Hb _] & _)]; [apply I2; exists m; auto|contradiction].
Qed.
Lemma texts_get fr i : dict_get str_eqb (texts_of fr) i = option_map (fun x => f_value (if_fact x)) (dict_get str_eqb (by_id fr) i).
Proof.
  unfold texts_of. induction (by_id fr) as [|[j x] d IH]; [reflexivity|]. cbn [map fst snd dict_get]. destruct (str_eqb j i); [reflexivity|exact IH].
Qed.
Lemma texts_say nodes os fr i v : Forall2 outcome nodes os -> stored (somes (map fst os)) fr ->
  (dict_get str_eqb (texts_of fr) i = Some v <-> says rep py_float era_valid contexts nodes i v).
Proof.
  intros F [_ S]. destruct (last_says i _ _ F) as [I1 I2]. rewrite texts_get. split.
  - destruct (dict_get str_eqb (by_id fr) i) as [f|] eqn:E; [|discriminate]. intros [= <-]. apply I1, S, E.
  - intros H. apply I2 in H as (f & Hf & <-). apply S in Hf. rewrite Hf. reflexivity.
Qed.
End Values.

Lemma plain_has fr i : facts_has_id (plain_facts fr) i = true <-> exists v, dict_get str_eqb (texts_of fr) i = Some v.
Proof.
  rewrite texts_get. unfold facts_has_id, plain_facts, dict_mem. cbn [fr_by_id].
  assert (E : dict_get str_eqb (map (fun p => (fst p, if_fact (snd p))) (by_id fr)) i = option_map if_fact (dict_get str_eqb (by_id fr) i)).
  { induction (by_id fr) as [|[j x] d IH]; [reflexivity|]. cbn [map fst snd dict_get]. destruct (str_eqb j i); [reflexivity|exact IH]. }
  rewrite E. destruct (dict_get str_eqb (by_id fr) i); cbn [option_map]; split; eauto; [discriminate|intros (v & [=])].
Qed.

(** ** The networks of links with more fuel *)

Lemma groups_more f f' sh : f <= f' -> forall gs h r, LinkModel.combine_groups f sh gs h = Ok r -> LinkModel.combine_groups f' sh gs h = Ok r.
Proof.
  intros Hf. induction gs as [|[c g] gs IH]; intros h r H; cbn [LinkModel.combine_groups] in *; [exact H|].
  apply LinkProofs.bind_ok in H as (x & Hx & H). rewrite (CombineOpenProofs.combine_mono _ _ _ _ _ _ Hf Hx). cbn [bind].
  destruct (rev g); [discriminate H|]. apply LinkProofs.bind_ok in H as (y & Hy & H). rewrite (IH _ _ Hy). exact H.
Qed.
Lemma roles_more f f' sh : f <= f' -> forall d h r, LinkModel.combine_roles f sh d h = Ok r -> LinkModel.combine_roles f' sh d h = Ok r.
Proof.
  intros Hf. induction d as [|[c l] d IH]; intros h r H; cbn [LinkModel.combine_roles] in *; [exact H|].
  apply LinkProofs.bind_ok in H as (x & Hx & H). apply LinkProofs.bind_ok in H as (y & Hy & H). unfold LinkModel.combine_role in *.
  apply LinkProofs.bind_ok in Hx as (z & Hz & Hx). rewrite (groups_more _ _ _ Hf _ _ _ Hz). cbn [bind]. injection Hx as <-. rewrite (IH _ _ Hy). exact H.
Qed.
Lemma networks_more es nr fi eo ro f f' sh docs e r : f <= f' -> LinkModel.parse_networks es nr fi eo ro f sh docs e = Ok r ->
  LinkModel.parse_networks es nr fi eo ro f' sh docs e = Ok r.
Proof.
  intros Hf H. unfold LinkModel.parse_networks in *. apply LinkProofs.bind_ok in H as (x & Hx & H). rewrite Hx. cbn [bind].
  apply LinkProofs.bind_ok in H as (y & Hy & H). rewrite (roles_more _ _ _ Hf _ _ _ Hy). exact H.
Qed.

(** ** Footnotes and relationships together *)

Lemma same_gets {V} (d d' : list (str * V)) : (forall i v, dict_get str_eqb d i = Some v <-> dict_get str_eqb d' i = Some v) ->
  forall i, dict_get str_eqb d i = dict_get str_eqb d' i.
Proof.
  intros H i. specialize (H i). destruct (dict_get str_eqb d i) as [v|]; [symmetry; apply H; reflexivity|].
  destruct (dict_get str_eqb d' i) as [v|]; [|reflexivity]. apply H. reflexivity.
Qed.
Lemma relationships_ext e roots (P Q : str -> str -> Prop) : (forall i v, P i v <-> Q i v) -> (relationships_fine e roots P <-> relationships_fine e roots Q).
Proof.
  intros H. unfold relationships_fine. split; intros [A B]; (split; [exact A|]); intros ns fs Hn Hf; apply B; try exact Hn; intros i v; rewrite Hf; [symmetry|]; apply H.
Qed.
Lemma footnotes_run e tostring fuel roots cr r taken fs s : FootSpec.lists_sets (FootModel.e_set e) -> chains fuel roots [] = Some cr ->
  r_relationships r = resource_parts "ix:relationship" roots ->
  (runs (read_footnotes e tostring fuel roots r taken fs) s <->
   notes_fine roots /\ relationships_fine e roots (fun i v => dict_get str_eqb (texts_of fs) i = Some v)).
Proof.
  intros He Hc Er. unfold read_footnotes. rewrite Er. clear Er.
  assert (S0 : runs (parse_role_references e r) s) by (destruct (does_references e r s) as (es & H & _); eexists; exact H).
  assert (T : forall P : Prop, P <-> True /\ P) by tauto. rewrite (T (notes_fine roots /\ _)). apply runs_stage; [auto|auto|]. clear T S0. intros [] s1 _.
  destruct (notes_run e tostring (all_places roots) (chains_of fuel roots) (note_places roots) [] taken s1) as [N1 N2].
  assert (N : runs (read_notes e tostring (all_places roots) (chains_of fuel roots) (note_places roots) [] taken) s1 <-> notes_fine roots).
  { rewrite N1. unfold notes_fine. split.
    - intros H p id ts Hp. exact (proj1 (note_reads tostring fuel roots cr p Hc Hp) (H p Hp) id ts).
    - intros H p Hp. apply (note_reads tostring fuel roots cr p Hc Hp). intros id ts. apply H, Hp. }
  apply runs_stage; [apply N|apply N|]. intros ns s2 E2. specialize (N2 _ _ E2). clear N N1 E2.
  destruct (arcs_run e ns (texts_of fs) (resource_parts "ix:relationship" roots) s2) as [A1 A2].
  unfold relationships_fine. apply runs_stage; [apply A1|apply A1|]. intros arcs s3 E3. specialize (A2 _ _ E3).
  assert (B := FootOpenProofs.networks_iff e He ns (texts_of fs) _ _ A2).
  assert (Hn : forall id, In id (map fst ns) <-> note_with_id roots id).
  { intros id. rewrite N2. unfold note_with_id. split; [intros [[]|K]; exact K|auto]. }
  assert (G : runs (let! nws := lift (FootModel.build_networks e ns (texts_of fs) arcs) in ret (ns, nws)) s3 <-> exists nws, FootModel.build_networks e ns (texts_of fs) arcs = Ok nws).
  { unfold runs, mbind, lift. destruct (FootModel.build_networks e ns (texts_of fs) arcs) as [nws|ex]; split; intros (x & H); try discriminate H; eexists; reflexivity. }
  rewrite G, B. clear G B. split.
  - intros H ns' fs' Hn' Hf' l r0. eapply group_same; [| |exact (H l r0)].
    + intros id. rewrite Hn, Hn'. reflexivity.
    + apply same_gets. intros i v. rewrite Hf'. reflexivity.
  - intros H l r0. apply H; [exact Hn|reflexivity].
Qed.

(** ** More fuel *)

Lemma inline_ext pd rep pf ev k k' docs s : (forall ids, k ids = k' ids) -> parse_inline pd rep pf ev k docs s = parse_inline pd rep pf ev k' docs s.
Proof.
  intros H. unfold parse_inline. set (ds := filter _ docs). unfold mbind at 1. symmetry. unfold mbind at 1.
  destruct (parse_headers _ s) as [[h s1]|]; [|reflexivity]. unfold mbind at 1. symmetry. unfold mbind at 1.
  destruct (parse_references _ _ s1) as [[t s2]|]; [|reflexivity]. unfold mbind at 1. symmetry. unfold mbind at 1.
  destruct (parse_resources _ _ s2) as [[r s3]|]; [|reflexivity]. unfold mbind at 1. symmetry. unfold mbind at 1.
  destruct (parse_contexts _ _ _ _ _ s3) as [[tc s4]|]; [|reflexivity]. unfold mbind at 1. symmetry. unfold mbind at 1.
  destruct (parse_units _ _ s4) as [[t5 s5]|]; [|reflexivity]. unfold mbind at 1. symmetry. unfold mbind at 1.
  destruct (validate_hidden _ s5) as [[[] s6]|]; [|reflexivity]. unfold check_continuations. rewrite H. reflexivity.
Qed.
Lemma inline_more e tostring pd rep pf ev roots fuel s : (forall p, In p (fact_places roots) -> usual_prefix p) -> texts_end roots -> enough roots <= fuel ->
  parse_inline pd rep pf ev (continuations e fuel roots) (documents tostring fuel roots) s =
  parse_inline pd rep pf ev (continuations e (enough roots) roots) (documents tostring (enough roots) roots) s.
Proof.
  intros Hp Ht Hf. destruct (any_taken roots Hp fuel [] Hf Ht) as (cr & Hcr & _). rewrite (documents_enough roots Hp tostring fuel cr Hcr).
  apply inline_ext. intros ids. unfold continuations. destruct (any_taken roots Hp fuel ids Hf Ht) as (cr' & -> & ->). reflexivity.
Qed.
Lemma footnotes_more e tostring roots fuel r taken fs s : (forall p, In p (fact_places roots) -> usual_prefix p) -> texts_end roots -> enough roots <= fuel ->
  read_footnotes e tostring fuel roots r taken fs s = read_footnotes e tostring (enough roots) roots r taken fs s.
Proof.
  intros Hp Ht Hf. destruct (any_taken roots Hp fuel [] Hf Ht) as (cr & Hcr & _). unfold read_footnotes. rewrite (chains_enough roots Hp fuel cr Hcr). reflexivity.
Qed.
