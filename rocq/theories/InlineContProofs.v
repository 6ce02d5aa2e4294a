(** Proofs about the continuations of inline documents. *)
From Coq Require Import QArith Permutation Lia.
From Verif Require Import Base QNameModel QNameProofs ErrBase ErrModel NumModel DateModel CtxModel CtxSpec InlineModel InlineSpec
  InlineFilingModel InlineFilingSpec InlineFilingProofs InlineInsideProofs.
From Verif Require ConceptProofs TextModel TextSpec TextProofs TextProps FootModel FootSpec.
Local Open Scope nat_scope.
Local Opaque u.

(** ** More fuel gives the same *)

Lemma chain_loop_more index e fuel : forall fuel' o c0 used errs r, fuel <= fuel' ->
  TextModel.chain_loop fuel index e o c0 used errs = Some r -> TextModel.chain_loop fuel' index e o c0 used errs = Some r.
Proof.
  induction fuel as [|fuel IH]; intros fuel' o c0 used errs r Hf; (destruct o as [id|]; [|destruct fuel'; cbn [TextModel.chain_loop]; auto]).
  - discriminate.
  - destruct fuel' as [|fuel']; [lia|]. cbn [TextModel.chain_loop]. destruct (dict_get _ _ _) as [c|]; [|auto]. apply IH. lia.
Qed.
Lemma chains_loop_more index fuel fuel' els : fuel <= fuel' -> forall cs used errs r,
  TextModel.chains_loop fuel index els cs used errs = Some r -> TextModel.chains_loop fuel' index els cs used errs = Some r.
Proof.
  intros Hf. induction els as [|e els IH]; intros cs used errs r; cbn [TextModel.chains_loop]; [auto|].
  destruct (TextModel.chain_loop fuel _ _ _ _ _ _) as [[[chain used'] errs']|] eqn:E; [|discriminate].
  rewrite (chain_loop_more _ _ _ _ _ _ _ _ _ Hf E). apply IH.
Qed.
Lemma create_chains_more fuel fuel' a b c taken r : fuel <= fuel' ->
  TextModel.create_continuation_chains fuel a b c taken = Some r -> TextModel.create_continuation_chains fuel' a b c taken = Some r.
Proof.
  intros Hf. unfold TextModel.create_continuation_chains. destruct (TextModel.check_continuation_ids c taken) as [errs0 tk].
  destruct (TextModel.chains_loop fuel _ _ _ _ _) as [r0|] eqn:E; [|discriminate]. rewrite (chains_loop_more _ _ _ _ Hf _ _ _ _ E). auto.
Qed.
Lemma chains_more fuel fuel' roots taken r : fuel <= fuel' -> chains fuel roots taken = Some r -> chains fuel' roots taken = Some r.
Proof. apply create_chains_more. Qed.
Lemma chains_same fuel fuel' roots taken r r' : chains fuel roots taken = Some r -> chains fuel' roots taken = Some r' -> r = r'.
Proof.
  intros H H'. apply (chains_more _ (Nat.max fuel fuel')) in H; [|lia]. apply (chains_more _ (Nat.max fuel fuel')) in H'; [|lia]. congruence.
Qed.

(** ** Following *)

Lemma last_with_same {A} (P : A -> Prop) l x y : last_with P l x -> last_with P l y -> x = y.
Proof.
  intros (b & a & E & Px & Ha) (b' & a' & E' & Py & Ha'). subst l. revert b' E'.
  induction b as [|z b IH]; intros [|z' b'] E'; cbn [app] in E'; injection E' as E1 E2.
  - exact E1.
  - exfalso. apply (Ha y); [|exact Py]. rewrite E2. apply in_elt.
  - exfalso. apply (Ha' x); [|exact Px]. rewrite <- E2. apply in_elt.
  - exact (IH _ E2).
Qed.
Lemma last_with_in {A} (P : A -> Prop) l x : last_with P l x -> In x l /\ P x.
Proof. intros (b & a & -> & Px & _). split; [apply in_elt|exact Px]. Qed.

Lemma goes_on_same conts o qs : goes_on conts o qs -> forall qs', goes_on conts o qs' -> qs = qs'.
Proof.
  induction 1 as [|id Hn|id q qs Hq H IH]; intros qs' H'; inversion H' as [|id' Hn'|id' q' qs0 Hq' H0]; subst; auto.
  - apply last_with_in in Hq' as [K1 K2]. destruct (Hn _ K1 K2).
  - apply last_with_in in Hq as [K1 K2]. destruct (Hn' _ K1 K2).
  - assert (q = q') as <- by (eapply last_with_same; eassumption). f_equal. apply IH, H0.
Qed.

Section Celems.
Variable all : list place.
Lemma target_last conts id c : TextSpec.target (map (celem_of all) conts) id = Some c ->
  exists q, c = celem_of all q /\ last_with (fun q => attr (p_xml q) (u "id") = Some id) conts q.
Proof.
  intros Ht. unfold TextSpec.target in Ht. rewrite <- map_rev in Ht.
  assert (G : exists q, c = celem_of all q /\ find (fun q => opt_eqb str_eqb (attr (p_xml q) (u "id")) (Some id)) (rev conts) = Some q).
  { clear -Ht. revert Ht. generalize (rev conts). intros l. induction l as [|q l IH]; [discriminate|]. cbn [map find].
    change (TextModel.ce_id (celem_of all q)) with (attr (p_xml q) (u "id")).
    destruct (opt_eqb str_eqb (attr (p_xml q) (u "id")) (Some id)); [intros [= <-]; eauto|exact IH]. }
  destruct G as (q & -> & Eq). exists q. split; [reflexivity|]. eapply find_last_with; [|exact Eq]. intros x. cbv beta.
  destruct (opt_eqb_spec str_eqb str_eqb_spec (attr (p_xml x) (u "id")) (Some id)) as [E|E]; split; congruence.
Qed.
Lemma target_nobody conts id : TextSpec.target (map (celem_of all) conts) id = None -> forall q, In q conts -> attr (p_xml q) (u "id") <> Some id.
Proof. intros Ht q Hq E. apply TextProofs.target_none in Ht. apply Ht. exists (celem_of all q). split; [apply in_map, Hq|exact E]. Qed.

Lemma follows_out conts o chain d : TextSpec.follows (map (celem_of all) conts) o chain d ->
  forall id, runs_out conts o id <-> d = Some id.
Proof.
  induction 1 as [|id Ht|id c chain d Ht Hf IH]; intros id'.
  - split; [|discriminate]. intros H. inversion H.
  - pose proof (target_nobody _ _ Ht) as N. split.
    + intros H. inversion H as [i Hi|i q i' Hq]; subst; [reflexivity|]. apply last_with_in in Hq as [K1 K2]. destruct (N _ K1 K2).
    + intros [= <-]. constructor. exact N.
  - apply target_last in Ht as (q & -> & Hq). cbn [celem_of TextModel.ce_cont] in IH. rewrite <- IH. split.
    + intros H. inversion H as [i Hi|i q' i' Hq' H']; subst.
      * apply last_with_in in Hq as [K1 K2]. destruct (Hi _ K1 K2).
      * assert (q = q') as -> by (eapply last_with_same; eassumption). exact H'.
    + intros H. eapply out_later; eassumption.
Qed.
End Celems.

Lemma ce_cont_of all p : TextModel.ce_cont (celem_of all p) = attr (p_xml p) (u "continuedAt").
Proof. reflexivity. Qed.
Lemma ce_id_of all p : TextModel.ce_id (celem_of all p) = attr (p_xml p) (u "id").
Proof. reflexivity. Qed.

Section Roots.
Variable roots : list tree.
Let all := all_places roots.
Let conts := cont_places roots.
Let cs := map (celem_of all) conts.

Lemma celem_inj p q : In p all -> In q all -> celem_of all p = celem_of all q -> p = q.
Proof. intros Hp Hq E. apply (key_inj roots p q Hp Hq). unfold celem_of in E. injection E as E _. exact E. Qed.

Lemma on_chain_continues p c : (exists chain d, TextSpec.follows cs (TextModel.ce_cont (celem_of all p)) chain d) ->
  (TextSpec.on_chain cs (celem_of all p) c <-> exists q, c = celem_of all q /\ In q conts /\ continues conts p q).
Proof.
  intros (chain & d & Hf). split.
  - intros (chain' & d' & Hf' & Hc). apply follows_goes in Hf' as (qs & Hg & -> & Hi). apply in_map_iff in Hc as (q & <- & Hq).
    exists q. split; [reflexivity|]. split; [apply Hi, Hq|]. exists qs. auto.
  - intros (q & -> & Hq & qs & Hg & Hin). exists chain, d. split; [exact Hf|].
    apply follows_goes in Hf as (qs' & Hg' & -> & _). rewrite ce_cont_of in Hg'. rewrite (goes_on_same _ _ _ Hg' _ Hg). apply in_map, Hin.
Qed.

Lemma checked_ids ps : forall errs taken x,
  In x (fst (fold_left (fun '(errs, taken) c =>
    match TextModel.ce_id c with
    | None => (errs ++ [TextModel.WithoutId (TextModel.ce_key c)], taken)
    | Some id => (errs ++ (if TextModel.smem id taken then [TextModel.DuplicateId (TextModel.ce_key c) id] else []), id :: taken)
    end) (map (celem_of all) ps) (errs, taken))) <->
  In x errs \/
  (exists p, In p ps /\ attr (p_xml p) (u "id") = None /\ x = TextModel.WithoutId (p_key p)) \/
  (exists a p b i, ps = a ++ p :: b /\ attr (p_xml p) (u "id") = Some i /\ In i (taken ++ ids_of (map p_xml a)) /\ x = TextModel.DuplicateId (p_key p) i).
Proof.
  induction ps as [|p ps IH]; intros errs taken x.
  - cbn [map fold_left fst]. split; [auto|]. intros [K|[(p & [] & _)|(a & p & b & i & E & _)]]; [exact K|]. destruct a; discriminate E.
  - cbn [map fold_left]. rewrite ce_id_of. destruct (attr (p_xml p) (u "id")) as [i|] eqn:Ei; rewrite IH, in_app_iff; clear IH.
    + assert (G : In x (if TextModel.smem i taken then [TextModel.DuplicateId (TextModel.ce_key (celem_of all p)) i] else []) <->
        In i taken /\ x = TextModel.DuplicateId (p_key p) i).
      { unfold TextModel.smem. destruct (existsb (str_eqb i) taken) eqn:Es.
        - apply existsb_exists in Es as (j & Hj & E). apply str_eqb_eq in E. subst j. cbn. split; [intros [<-|[]]; auto|intros [_ ->]; auto].
        - split; [intros []|]. intros [K _]. exfalso. assert (existsb (str_eqb i) taken = true) by (apply existsb_exists; exists i; split; [exact K|apply str_eqb_refl]). congruence. }
      rewrite G. split.
      * intros [[K|[K ->]]|[(q & Hq & K)|(a & q & b & j & -> & K1 & K2 & K3)]].
        -- auto.
        -- right. right. exists [], p, ps, i. rewrite app_nil_r. auto.
        -- right. left. exists q. split; [right; exact Hq|exact K].
        -- right. right. exists (p :: a), q, b, j. split; [reflexivity|]. split; [exact K1|]. split; [|exact K3].
           cbn [map ids_of flat_map]. rewrite Ei. cbn [app]. apply in_app_iff. destruct K2 as [<-|K2]; [right; left; reflexivity|].
           apply in_app_iff in K2 as [K2|K2]; [left; exact K2|right; right; exact K2].
      * intros [K|[(q & [<-|Hq] & K1 & K2)|([|z a] & q & b & j & E & K1 & K2 & K3)]].
        -- auto.
        -- congruence.
        -- right. left. exists q. auto.
        -- injection E as <- <-. rewrite app_nil_r in K2. assert (j = i) by congruence. subst j. auto.
        -- injection E as <- ->. right. right. exists a, q, b, j. split; [reflexivity|]. split; [exact K1|]. split; [|exact K3].
           cbn [map ids_of flat_map] in K2. rewrite Ei in K2. cbn [app] in K2. apply in_app_iff in K2 as [K2|[K2|K2]];
             [right; apply in_app_iff; auto|left; exact K2|right; apply in_app_iff; auto].
    + split.
      * intros [[K|[<-|[]]]|[(q & Hq & K)|(a & q & b & j & -> & K1 & K2 & K3)]].
        -- auto.
        -- right. left. exists p. split; [left; reflexivity|]. split; [exact Ei|reflexivity].
        -- right. left. exists q. split; [right; exact Hq|exact K].
        -- right. right. exists (p :: a), q, b, j. split; [reflexivity|]. split; [exact K1|]. split; [|exact K3].
           cbn [map ids_of flat_map]. rewrite Ei. exact K2.
      * intros [K|[(q & [<-|Hq] & K1 & ->)|([|z a] & q & b & j & E & K1 & K2 & K3)]].
        -- auto.
        -- left. right. left. reflexivity.
        -- right. left. exists q. auto.
        -- injection E as <- <-. congruence.
        -- injection E as <- ->. right. right. exists a, q, b, j. split; [reflexivity|]. split; [exact K1|]. split; [|exact K3].
           cbn [map ids_of flat_map] in K2. rewrite Ei in K2. exact K2.
Qed.

(** The loops add only errors about reuse and missing continuations. *)
Definition from_ids (x : TextModel.cerr) : Prop := match x with TextModel.WithoutId _ | TextModel.DuplicateId _ _ => True | _ => False end.
Definition not_loop (x : TextModel.cerr) : Prop := match x with TextModel.Reused _ _ | TextModel.InvalidId _ _ => False | _ => True end.
Lemma ids_not_loop x : from_ids x -> not_loop x.
Proof. destruct x; cbn; auto. Qed.
Lemma chain_loop_ids index e fuel : forall o c0 used errs r, TextModel.chain_loop fuel index e o c0 used errs = Some r ->
  forall x, not_loop x -> (In x (snd r) <-> In x errs).
Proof.
  induction fuel as [|fuel IH]; intros [id|] c0 used errs r; cbn [TextModel.chain_loop]; try discriminate; try (intros [= <-]; reflexivity).
  assert (G : forall x, not_loop x -> (In x (errs ++ (if TextModel.smem id used then [TextModel.Reused (TextModel.ce_key e) id] else [])) <-> In x errs)).
  { intros x Hx. rewrite in_app_iff. destruct (TextModel.smem id used); cbn [In]; split; auto; intros [K|K]; auto; [destruct K as [<-|[]]; destruct Hx|destruct K]. }
  destruct (dict_get _ _ _) as [c|].
  - intros H x Hx. rewrite (IH _ _ _ _ _ H x Hx). apply G, Hx.
  - intros [= <-] x Hx. cbn [snd]. rewrite in_app_iff, (G x Hx). split; [|auto]. intros [K|[<-|[]]]; [exact K|destruct Hx].
Qed.
Lemma chains_loop_ids index fuel els : forall chs used errs r, TextModel.chains_loop fuel index els chs used errs = Some r ->
  forall x, not_loop x -> (In x (snd r) <-> In x errs).
Proof.
  induction els as [|e els IH]; intros chs used errs r; cbn [TextModel.chains_loop]; [intros [= <-]; reflexivity|].
  destruct (TextModel.chain_loop _ _ _ _ _ _ _) as [[[chain used'] errs']|] eqn:E; [|discriminate]. intros H x Hx.
  rewrite (IH _ _ _ _ H x Hx). exact (chain_loop_ids _ _ _ _ _ _ _ _ E x Hx).
Qed.
Lemma chain_loop_kinds index e fuel : forall o c0 used errs r, TextModel.chain_loop fuel index e o c0 used errs = Some r ->
  forall l, In (TextModel.Unused l) (snd r) -> In (TextModel.Unused l) errs.
Proof.
  induction fuel as [|fuel IH]; intros [id|] c0 used errs r; cbn [TextModel.chain_loop]; try discriminate; try (intros [= <-]; auto).
  assert (G : forall l, In (TextModel.Unused l) (errs ++ (if TextModel.smem id used then [TextModel.Reused (TextModel.ce_key e) id] else [])) -> In (TextModel.Unused l) errs).
  { intros l. rewrite in_app_iff. destruct (TextModel.smem id used); cbn [In]; intros [K|K]; auto; [destruct K as [[=]|[]]|destruct K]. }
  destruct (dict_get _ _ _) as [c|].
  - intros H l Hl. apply G. exact (IH _ _ _ _ _ H l Hl).
  - intros [= <-] l Hl. cbn [snd] in Hl. apply in_app_iff in Hl as [K|[[=]|[]]]. apply G, K.
Qed.
Lemma chains_loop_kinds index fuel els : forall chs used errs r, TextModel.chains_loop fuel index els chs used errs = Some r ->
  forall l, In (TextModel.Unused l) (snd r) -> In (TextModel.Unused l) errs.
Proof.
  induction els as [|e els IH]; intros chs used errs r; cbn [TextModel.chains_loop]; [intros [= <-]; auto|].
  destruct (TextModel.chain_loop _ _ _ _ _ _ _) as [[[chain used'] errs']|] eqn:E; [|discriminate]. intros H l Hl.
  apply (chain_loop_kinds _ _ _ _ _ _ _ _ E). exact (IH _ _ _ _ H l Hl).
Qed.
Lemma descendant_kind chs x : In x (TextModel.descendant_errors chs) -> exists d parent, x = TextModel.InvalidDescendant d parent.
Proof.
  unfold TextModel.descendant_errors. intros H. apply in_concat in H as (l & Hl & H). apply in_map_iff in Hl as (p & <- & _).
  apply in_concat in H as (l & Hl & H). apply in_map_iff in Hl as (c & <- & _). apply in_map_iff in H as (d & <- & _). eauto.
Qed.

Hypothesis Hprefix : forall p, In p (fact_places roots) -> usual_prefix p.
Lemma continuables_are : TextSpec.continuable (map (celem_of all) (fact_places roots)) (map (celem_of all) (note_places roots)) =
  map (celem_of all) (continuables roots).
Proof.
  unfold TextSpec.continuable, continuables. rewrite map_app. f_equal. revert Hprefix. generalize (fact_places roots). intros l Hl.
  induction l as [|p l IH]; [reflexivity|]. cbn [map filter]. rewrite IH by (intros; apply Hl; right; assumption). clear IH.
  assert (E : contains (u "nonNumeric") (TextModel.ce_tag (celem_of all p)) =
    match tag_name (p_xml p) with Ok t => str_eqb t (u "ix:nonNumeric") | Raise _ => false end).
  { cbn [celem_of TextModel.ce_tag]. 
    Local Transparent u.
    destruct (Hl p (or_introl eq_refl)) as [-> | ->]; vm_compute; reflexivity. }
  rewrite E. destruct (match tag_name (p_xml p) with Ok t => str_eqb t (u "ix:nonNumeric") | Raise _ => false end); reflexivity.
Qed.
Lemma continuables_in p : In p (continuables roots) -> In p all.
Proof.
  unfold continuables. intros H. apply in_app_iff in H as [H|H]; [apply filter_In in H as [H _]|]; eapply ix_places_in, H.
Qed.
Lemma conts_in p : In p conts -> In p all.
Proof. apply ix_places_in. Qed.
Lemma xml_at_key p : In p all -> xml_at all (p_key p) = p_xml p.
Proof. intros Hp. unfold xml_at. unfold all. rewrite place_at_key by exact Hp. reflexivity. Qed.

Lemma chain_errors fuel taken chs errs tk : chains fuel roots taken = Some (chs, errs, tk) ->
  (forall k, In (TextModel.WithoutId k) errs <-> exists p, In p conts /\ attr (p_xml p) (u "id") = None /\ k = p_key p) /\
  (forall k i, In (TextModel.DuplicateId k i) errs <-> exists a p b, conts = a ++ p :: b /\ attr (p_xml p) (u "id") = Some i /\
     In i (taken ++ ids_of (map p_xml a)) /\ k = p_key p) /\
  (forall k i, In (TextModel.InvalidId k i) errs <-> exists p, In p (continuables roots) /\ k = p_key p /\
     runs_out conts (attr (p_xml p) (u "continuedAt")) i) /\
  (forall k, (exists i, In (TextModel.Reused k i) errs) <-> exists a p b p' q, continuables roots = a ++ p :: b /\ k = p_key p /\ In p' a /\
     continues conts p q /\ continues conts p' q) /\
  (forall i, (exists ids, In (TextModel.Unused ids) errs /\ In i ids) <->
     (exists q, In q conts /\ attr (p_xml q) (u "id") = Some i) /\ unused roots i).
Proof.
  intros H. assert (Hall : forall c, In c (TextSpec.continuable (map (celem_of all) (fact_places roots)) (map (celem_of all) (note_places roots))) ->
    exists chain d, TextSpec.follows cs (TextModel.ce_cont c) chain d).
  { apply (TextProps.C15_ends_iff _ _ _ taken). exists fuel, (chs, errs, tk). exact H. }
  pose proof (TextProps.C15_chains (S (length cs + fuel)) _ _ _ taken Hall ltac:(lia)) as (chs' & errs' & tk' & E & _ & _ & G1 & G2 & G3).
  assert (E' : Some (chs', errs', tk') = Some (chs, errs, tk)).
  { rewrite <- E. apply (chains_more fuel); [lia|exact H]. }
  injection E' as -> -> ->. rewrite continuables_are in G1, G2, G3, Hall.
  assert (F : forall p, In p (continuables roots) -> exists chain d, TextSpec.follows cs (TextModel.ce_cont (celem_of all p)) chain d)
    by (intros p Hp; apply Hall, in_map, Hp).
  assert (I : forall x, from_ids x -> (In x errs <->
    (exists p, In p conts /\ attr (p_xml p) (u "id") = None /\ x = TextModel.WithoutId (p_key p)) \/
    (exists a p b i, conts = a ++ p :: b /\ attr (p_xml p) (u "id") = Some i /\ In i (taken ++ ids_of (map p_xml a)) /\ x = TextModel.DuplicateId (p_key p) i))).
  { intros x Hx. unfold chains, TextModel.create_continuation_chains in H. pose proof (checked_ids conts [] taken x) as K.
    unfold TextModel.check_continuation_ids in H. fold all conts cs in H. fold cs in K. destruct (fold_left _ cs _) as [errs0 tk0]. cbn [fst] in K.
    destruct (TextModel.chains_loop _ _ _ _ _ _) as [[[chs0 used] errs1]|] eqn:El; [|discriminate]. injection H as _ <- _.
    pose proof (chains_loop_ids _ _ _ _ _ _ _ El x (ids_not_loop x Hx)) as K'. cbn [snd] in K'. rewrite !in_app_iff, K', K. cbn [In]. split; [|tauto].
    intros [[[]|K1]|[K1|K1]]; [exact K1| |].
    - apply descendant_kind in K1 as (d & pa & ->). destruct Hx.
    - clear -K1 Hx. match goal with K : In _ (match ?l with _ => _ end) |- _ => destruct l end; [destruct K1|]. destruct K1 as [<-|[]]. destruct Hx. }
  split; [|split; [|split; [|split]]].
  - intros k. rewrite (I (TextModel.WithoutId k) Logic.I). split.
    + intros [(p & K1 & K2 & [= ->])|(a & p & b & i & _ & _ & _ & [=])]. eauto.
    + intros (p & K1 & K2 & ->). left. eauto.
  - intros k i. rewrite (I (TextModel.DuplicateId k i) Logic.I). split.
    + intros [(p & _ & _ & [=])|(a & p & b & j & K1 & K2 & K3 & [= -> ->])]. exists a, p, b. auto.
    + intros (a & p & b & K1 & K2 & K3 & ->). right. exists a, p, b, i. auto.
  - intros k i. rewrite G1. split.
    + intros (c & chain & Hc & <- & Hf). apply in_map_iff in Hc as (p & <- & Hp). exists p. split; [exact Hp|]. split; [reflexivity|].
      apply (follows_out all _ _ _ _ Hf). reflexivity.
    + intros (p & Hp & -> & Ho). destruct (F p Hp) as (chain & d & Hf). exists (celem_of all p), chain. split; [apply in_map, Hp|]. split; [reflexivity|].
      apply (follows_out all _ _ _ _ Hf) in Ho. rewrite <- Ho. exact Hf.
  - intros k. split.
    + intros (i & K). apply G2 in K as (pre & c & post & c' & E1 & <- & Hc & _ & e' & He' & Hc').
      assert (exists a p b, continuables roots = a ++ p :: b /\ pre = map (celem_of all) a /\ c = celem_of all p) as (a & p & b & E2 & -> & ->).
      { clear -E1. revert pre E1. induction (continuables roots) as [|z l IH]; intros [|y pre] E1; cbn [map app] in E1; try discriminate E1.
        - injection E1 as <- _. exists [], z, l. auto.
        - injection E1 as <- E1. destruct (IH _ E1) as (a & p & b & -> & -> & ->). exists (z :: a), p, b. auto. }
      assert (Hp : In p (continuables roots)) by (rewrite E2; apply in_elt).
      apply on_chain_continues in Hc as (q & -> & Hq & Hpq); [|apply F, Hp].
      apply in_map_iff in He' as (p' & <- & Hp'). assert (Hp2 : In p' (continuables roots)) by (rewrite E2; apply in_or_app; left; exact Hp').
      apply on_chain_continues in Hc' as (q' & Eq & Hq' & Hpq'); [|apply F, Hp2].
      apply celem_inj in Eq; [|apply conts_in, Hq|apply conts_in, Hq']. subst q'.
      exists a, p, b, p', q. auto.
    + intros (a & p & b & p' & q & E2 & -> & Hp' & H1 & H2).
      assert (Hp : In p (continuables roots)) by (rewrite E2; apply in_elt).
      assert (Hp2 : In p' (continuables roots)) by (rewrite E2; apply in_or_app; left; exact Hp').
      assert (Hq : In q conts /\ exists i, attr (p_xml q) (u "id") = Some i).
      { destruct H1 as (qs & Hg & Hin). clear -Hg Hin. induction Hg as [|id|id z qs Hz Hg IH]; [destruct Hin|destruct Hin|].
        destruct Hin as [<-|Hin]; [|exact (IH Hin)]. apply last_with_in in Hz as [K1 K2]. eauto. }
      destruct Hq as (Hq & i & Ei). exists i. apply G2. exists (map (celem_of all) a), (celem_of all p), (map (celem_of all) b), (celem_of all q).
      rewrite E2, map_app. split; [reflexivity|]. split; [reflexivity|]. split; [apply on_chain_continues; [apply F, Hp|eauto]|].
      split; [exact Ei|]. exists (celem_of all p'). split; [apply in_map, Hp'|]. apply on_chain_continues; [apply F, Hp2|eauto].
  - intros i. rewrite G3. unfold unused. fold conts. split.
    + intros [(c & Hc & Ec) N]. apply in_map_iff in Hc as (q & <- & Hq). split; [exists q; auto|]. intros p q' Hp Hpq Eq. apply N.
      exists (celem_of all p), (celem_of all q'). split; [apply in_map, Hp|]. split; [|exact Eq]. apply on_chain_continues; [apply F, Hp|].
      exists q'. split; [reflexivity|]. split; [|exact Hpq]. destruct Hpq as (qs & Hg & Hin). clear -Hg Hin.
      induction Hg as [|id|id z qs Hz Hg IH]; [destruct Hin|destruct Hin|]. destruct Hin as [<-|Hin]; [|exact (IH Hin)]. apply last_with_in in Hz as [K1 _]. exact K1.
    + intros [(q & Hq & Eq) N]. split; [exists (celem_of all q); split; [apply in_map, Hq|exact Eq]|].
      intros (c & c' & Hc & Ho & Ei). apply in_map_iff in Hc as (p & <- & Hp). apply on_chain_continues in Ho as (q' & -> & _ & Hpq); [|apply F, Hp].
      exact (N p q' Hp Hpq Ei).
Qed.
Lemma local_clark uri l : ~ In (ch "}") l -> CtxModel.local_of (to_clark uri l) = l.
Proof.
  intros H. unfold CtxModel.local_of, to_clark. rewrite app_assoc, app_assoc.
  Local Transparent u.
  change (u "}") with [ch "}"]. rewrite <- (app_assoc _ [ch "}"] l). apply ConceptProofs.last_split_app, H.
  Local Opaque u.
Qed.
Lemma ix_tag names p : In p (flat_map (ix_places names) (pages 0 roots)) -> exists uri n, In n names /\ t_tag (p_tree p) = Some (to_clark uri (u n)).
Proof.
  intros H. apply in_flat_map in H as (page & _ & H). unfold ix_places in H. destruct (dict_get _ _ _) as [uri|]; [|destruct H].
  apply filter_In in H as [_ H]. apply existsb_exists in H as (n & Hn & H). exists uri, n. split; [exact Hn|]. unfold has_tag, p_xml in H. rewrite p_xml_tag in H.
  destruct (opt_eqb_spec str_eqb str_eqb_spec (t_tag (p_tree p)) (Some (to_clark uri (u n)))) as [E|E]; [exact E|discriminate H].
Qed.
Lemma plain_words : ~ In (ch "}") (u "continuation") /\ ~ In (ch "}") (u "footnote") /\ ~ In (ch "}") (u "nonNumeric") /\ ~ In (ch "}") (u "nonFraction") /\
  u "footnote" <> u "continuation" /\ u "nonNumeric" <> u "continuation" /\ u "nonFraction" <> u "continuation".
Proof.
  Local Transparent u.
  repeat split; try (vm_compute; intuition discriminate); intros H; vm_compute in H; discriminate H.
  Local Opaque u.
Qed.
Lemma conts_local q : In q conts -> has_local (u "continuation") (p_xml q) = true.
Proof.
  intros Hq. apply ix_tag in Hq as (uri & n & [<-|[]] & E). unfold has_local, p_xml. rewrite p_xml_tag, E.
  rewrite local_clark by apply plain_words. apply str_eqb_refl.
Qed.
Lemma continuables_local p : In p (continuables roots) -> has_local (u "continuation") (p_xml p) = false.
Proof.
  destruct plain_words as (W0 & W1 & W2 & W3 & W4 & W5 & W6).
  unfold continuables. intros H. assert (exists uri n, In n ["nonNumeric"; "nonFraction"; "footnote"]%string /\ t_tag (p_tree p) = Some (to_clark uri (u n))) as (uri & n & Hn & E).
  { apply in_app_iff in H as [H|H]; [apply filter_In in H as [H _]|]; apply ix_tag in H as (uri & n & Hn & E); exists uri, n; split; auto; cbn in Hn |- *; tauto. }
  unfold has_local, p_xml. rewrite p_xml_tag, E.
  destruct (str_eqb_spec (CtxModel.local_of (to_clark uri (u n))) (u "continuation")) as [K|K]; [exfalso|reflexivity].
  destruct Hn as [<-|[<-|[<-|[]]]]; rewrite local_clark in K by assumption; auto.
Qed.

Lemma inner_iff p q : In p all -> In q all ->
  In (p_key q) (inner_keys all p) <-> inside_of all p q /\
    (has_local (u "continuation") (p_xml q) = true \/ t_tag (p_tree q) <> None /\ t_tag (p_tree q) = t_tag (p_tree p)).
Proof.
  intros Hp Hq. pose proof (inside_keys roots p q Hp Hq) as IK. change (all_places roots) with all in IK. rewrite <- IK. unfold inner_keys. rewrite in_map_iff. split.
  - intros (z & Ez & Hz). apply filter_In in Hz as [Hz H]. assert (z = q) as -> by (apply (key_inj roots); auto).
    apply andb_prop in H as [H H3]. apply andb_prop in H as [H1 H2]. apply Nat.ltb_lt in H1. apply Nat.leb_le in H2. split; [auto|].
    apply orb_prop in H3 as [H3|H3]; [left; exact H3|right]. apply andb_prop in H3 as [H3 H4]. split.
    + intros N. rewrite N in H3. discriminate H3.
    + destruct (opt_eqb_spec str_eqb str_eqb_spec (t_tag (p_tree q)) (t_tag (p_tree p))) as [E|E]; [exact E|discriminate H4].
  - intros [[H1 H2] H]. exists q. split; [reflexivity|]. apply filter_In. split; [exact Hq|]. apply andb_true_intro. split.
    + apply andb_true_intro. split; [apply Nat.ltb_lt, H1|apply Nat.leb_le, H2].
    + apply orb_true_intro. destruct H as [H|[N E]]; [left; exact H|right]. apply andb_true_intro. split.
      * destruct (t_tag (p_tree q)); [reflexivity|congruence].
      * destruct (opt_eqb_spec str_eqb str_eqb_spec (t_tag (p_tree q)) (t_tag (p_tree p))) as [E'|E']; [reflexivity|congruence].
Qed.
Lemma inside_itself p : In p all -> ~ inside_of all p p.
Proof. intros Hp H. apply (inside_keys roots p p Hp Hp) in H. lia. Qed.

(** Errors about elements within each other *)
Lemma nested_errors fuel taken chs errs tk : chains fuel roots taken = Some (chs, errs, tk) ->
  forall k, (exists pa, In (TextModel.InvalidDescendant k pa) errs) <->
    exists p q, In p (continuables roots) /\ k = p_key q /\ within_itself roots p q.
Proof.
  intros H. assert (Hall : forall c, In c (TextSpec.continuable (map (celem_of all) (fact_places roots)) (map (celem_of all) (note_places roots))) ->
    exists chain d, TextSpec.follows cs (TextModel.ce_cont c) chain d).
  { apply (TextProps.C15_ends_iff _ _ _ taken). exists fuel, (chs, errs, tk). exact H. }
  pose proof (TextProps.C15_chains (S (length cs + fuel)) _ _ _ taken Hall ltac:(lia)) as (chs' & errs' & tk' & E & Ef & Ec & _).
  assert (E' : Some (chs', errs', tk') = Some (chs, errs, tk)).
  { rewrite <- E. apply (chains_more fuel); [lia|exact H]. }
  injection E' as -> -> ->. rewrite continuables_are in Ef. clear E Hall.
  assert (I : forall k pa, In (TextModel.InvalidDescendant k pa) errs <-> In (TextModel.InvalidDescendant k pa) (TextModel.descendant_errors chs)).
  { intros k pa. unfold chains, TextModel.create_continuation_chains in H. pose proof (checked_ids conts [] taken (TextModel.InvalidDescendant k pa)) as K.
    unfold TextModel.check_continuation_ids in H. fold all conts cs in H. fold cs in K. destruct (fold_left _ cs _) as [errs0 tk0]. cbn [fst] in K.
    destruct (TextModel.chains_loop _ _ _ _ _ _) as [[[chs0 used] errs1]|] eqn:El; [|discriminate]. injection H as -> <- _.
    pose proof (chains_loop_ids _ _ _ _ _ _ _ El (TextModel.InvalidDescendant k pa) Logic.I) as K'. cbn [snd] in K'. rewrite !in_app_iff, K', K. cbn [In]. split; [|tauto].
    intros [[[]|[(p & _ & _ & [=])|(a & p & b & i & _ & _ & _ & [=])]]|[K1|K1]]; [exact K1|].
    exfalso. clear -K1. match goal with K : In _ (match ?l with _ => _ end) |- _ => destruct l end; [destruct K1|]. destruct K1 as [[=]|[]]. }
  clear H. intros k. split.
  - intros (pa & K). apply I in K. unfold TextModel.descendant_errors in K. apply in_concat in K as (l & Hl & K). apply in_map_iff in Hl as ([c chain] & <- & Hc).
    cbn [fst snd] in K. apply in_concat in K as (l & Hl & K). apply in_map_iff in Hl as (d & <- & Hd). apply in_map_iff in K as (k' & [= -> _] & K).
    apply filter_In in K as [Hk Hw]. unfold TextModel.key_in in Hw. apply existsb_exists in Hw as (w & Hw & Ew). apply Nat.eqb_eq in Ew.
    assert (Hp : In c (map fst chs)) by (apply in_map_iff; exists (c, chain); auto). rewrite Ef in Hp. apply in_map_iff in Hp as (p & <- & Hp).
    destruct (Ec _ _ Hc) as (dd & Hf). apply follows_goes in Hf as (qs & Hg & -> & Hi). rewrite ce_cont_of in Hg.
    assert (P : forall z, In z (celem_of all p :: map (celem_of all) qs) -> exists p', z = celem_of all p' /\ In p' all /\ (p' = p \/ In p' qs)).
    { intros z [<-|Hz]; [exists p; split; [reflexivity|]; split; [apply continuables_in, Hp|auto]|].
      apply in_map_iff in Hz as (z' & <- & Hz). exists z'. split; [reflexivity|]. split; [apply conts_in, Hi, Hz|auto]. }
    destruct (P _ Hd) as (p' & -> & Hp' & Op). destruct (P _ Hw) as (q & -> & Hq & Oq). cbn [celem_of TextModel.ce_key TextModel.ce_desc] in Ew, Hk. subst k.
    apply (inner_iff p' q Hp' Hq) in Hk as [Hin Ht].
    exists p, q. split; [exact Hp|]. split; [reflexivity|].
    assert (Q : In q qs).
    { destruct Oq as [->|Oq]; [exfalso|exact Oq]. rewrite (continuables_local p Hp) in Ht. destruct Ht as [[=]|[N Ht]].
      destruct Op as [->|Op]; [exact (inside_itself p Hq Hin)|]. pose proof (conts_local p' (Hi _ Op)) as L. pose proof (continuables_local p Hp) as L'.
      unfold has_local, p_xml in L, L'. rewrite p_xml_tag in L, L'. rewrite Ht in L'. congruence. }
    split; [exists qs; auto|]. exists p'. split; [|exact Hin]. destruct Op as [->|Op]; [auto|right; exists qs; auto].
  - intros (p & q & Hp & -> & (qs & Hg & Hq) & p' & Op & Hin).
    assert (Hc : In (celem_of all p) (map fst chs)) by (rewrite Ef; apply in_map, Hp). apply in_map_iff in Hc as ([c chain] & Ep & Hc). cbn [fst] in Ep. subst c.
    destruct (Ec _ _ Hc) as (dd & Hf). apply follows_goes in Hf as (qs' & Hg' & -> & Hi). rewrite ce_cont_of in Hg'.
    rewrite (goes_on_same _ _ _ Hg' _ Hg) in *. clear Hg' qs'.
    assert (Op' : p' = p \/ In p' qs) by (destruct Op as [->|(qs' & Hg' & K)]; [auto|rewrite (goes_on_same _ _ _ Hg' _ Hg) in K; auto]). clear Op.
    assert (Hp' : In p' all) by (destruct Op' as [->|K]; [apply continuables_in, Hp|apply conts_in, Hi, K]).
    assert (Hqa : In q all) by (apply conts_in, Hi, Hq).
    exists (TextModel.ce_id (celem_of all p')). apply I. unfold TextModel.descendant_errors. apply in_concat. eexists. split; [apply in_map_iff; exists (celem_of all p, map (celem_of all) qs); split; [reflexivity|exact Hc]|].
    cbn [fst snd]. apply in_concat. eexists. split; [apply in_map_iff; exists (celem_of all p'); split; [reflexivity|]|].
    + destruct Op' as [->|K]; [left; reflexivity|right; apply in_map, K].
    + apply in_map_iff. exists (p_key q). split; [reflexivity|]. apply filter_In. cbn [celem_of TextModel.ce_desc]. split.
      * apply inner_iff; [exact Hp'|exact Hqa|]. split; [exact Hin|]. left. apply conts_local, Hi, Hq.
      * unfold TextModel.key_in. apply existsb_exists. exists (celem_of all q). split; [right; apply in_map, Hq|apply Nat.eqb_refl].
Qed.
(** A continuation is used or it is not. *)
Lemma used_or_not fuel taken cr i : chains fuel roots taken = Some cr ->
  (exists p q, In p (continuables roots) /\ continues conts p q /\ attr (p_xml q) (u "id") = Some i) \/ unused roots i.
Proof.
  intros E. assert (F : forall p, In p (continuables roots) -> exists qs, goes_on conts (attr (p_xml p) (u "continuedAt")) qs).
  { intros p Hp. pose proof (proj1 (TextProps.C15_ends_iff (map (celem_of all) (fact_places roots)) (map (celem_of all) (note_places roots)) cs taken)) as K.
    rewrite continuables_are in K. destruct (K (ex_intro _ fuel (ex_intro _ cr E)) (celem_of all p) (in_map _ _ _ Hp)) as (chain & d & Hf).
    apply follows_goes in Hf as (qs & Hg & _). exists qs. exact Hg. }
  unfold unused. fold conts. revert F. generalize (continuables roots). intros l. induction l as [|p l IH]; intros F; [right; intros p q []|].
  destruct IH as [(p' & q & Hp & H)|N]; [intros p' Hp; apply F; right; exact Hp|left; exists p', q; split; [right; exact Hp|exact H]|].
  destruct (F p (or_introl eq_refl)) as (qs & Hg).
  assert (D : (exists q, In q qs /\ attr (p_xml q) (u "id") = Some i) \/ forall q, In q qs -> attr (p_xml q) (u "id") <> Some i).
  { clear. induction qs as [|q qs IH]; [right; intros q []|]. destruct (opt_eqb str_eqb (attr (p_xml q) (u "id")) (Some i)) eqn:Eq.
    - left. exists q. split; [left; reflexivity|]. destruct (attr (p_xml q) (u "id")) as [j|]; [|discriminate Eq]. cbn in Eq. apply str_eqb_eq in Eq. congruence.
    - destruct IH as [(z & Hz & Ez)|N]; [left; exists z; split; [right; exact Hz|exact Ez]|]. right. intros z [<-|Hz]; [|exact (N z Hz)].
      intros Ez. rewrite Ez in Eq. cbn [opt_eqb] in Eq. rewrite (proj2 (str_eqb_eq i i) eq_refl) in Eq. discriminate Eq. }
  destruct D as [(q & Hq & Eq)|D].
  - left. exists p, q. split; [left; reflexivity|]. split; [exists qs; auto|exact Eq].
  - right. intros p' q [<-|Hp] Hc; [|exact (N p' q Hp Hc)]. destruct Hc as (qs' & Hg' & Hin). rewrite (goes_on_same _ _ _ Hg' _ Hg) in Hin. exact (D q Hin).
Qed.
End Roots.

Lemma continues_in conts p q : continues conts p q -> In q conts.
Proof.
  intros (qs & Hg & Hin). induction Hg as [|id|id z qs Hz Hg IH]; [destruct Hin|destruct Hin|].
  destruct Hin as [<-|Hin]; [|exact (IH Hin)]. apply last_with_in in Hz as [K1 _]. exact K1.
Qed.

(** ** What is reported *)

Section Reports.
Variable e : FootModel.env.
Hypothesis Hsets : FootSpec.lists_sets (FootModel.e_set e).
Variable roots : list tree.
Hypothesis Hprefix : forall p, In p (fact_places roots) -> usual_prefix p.
Let all := all_places roots.
Let conts := cont_places roots.

Lemma unused_report ids : (forall i, In i ids -> exists q, In q conts /\ attr (p_xml q) (u "id") = Some i) -> ids <> [] ->
  exists i c q, In i ids /\ attr (p_xml q) (u "id") = Some i /\ In q conts /\
    chain_report e all conts (TextModel.Unused ids) = [("IXBRL_UNUSED_CONTINUATION_ELEMENTS"%string, p_xml q, c)].
Proof.
  intros Hi Hn. cbn [chain_report]. pose proof (Hsets ids) as [_ Hin]. destruct (FootModel.e_set e ids) as [|i rest] eqn:Es.
  { exfalso. destruct ids as [|i ids]; [auto|]. assert (In i []) as [] by (apply Hin; left; reflexivity). }
  assert (Ki : In i ids) by (apply Hin; left; reflexivity).
  rewrite TextProofs.index_get. destruct (TextSpec.target (map (celem_of all) conts) i) as [c|] eqn:Et.
  2: { exfalso. destruct (Hi i Ki) as (q & Hq & Eq). exact (target_nobody _ _ _ Et q Hq Eq). }
  apply target_last in Et as (q & -> & Hq). apply last_with_in in Hq as [Hq Eq].
  exists i, [(u "element_ids", FootModel.e_repr e (i :: rest))], q. split; [exact Ki|]. split; [exact Eq|]. split; [exact Hq|].
  cbn [celem_of TextModel.ce_key]. unfold all. rewrite xml_at_key by (apply conts_in, Hq). reflexivity.
Qed.

Lemma continuations_problems fuel before ks ids : continuations e fuel roots before = Some (ks, ids) ->
  continuation_problems roots before (map (fun k => (fst (fst k), Some (snd (fst k)))) ks).
Proof.
  unfold continuations. fold all conts. destruct (chains fuel roots before) as [[[chs errs] tk]|] eqn:E; [|discriminate]. intros [= <- _].
  destruct (chain_errors roots Hprefix _ _ _ _ _ E) as (G1 & G2 & G3 & G4 & G5). fold conts in G1, G2, G3, G4, G5. fold all in G1, G2, G3, G4, G5.
  pose proof (nested_errors roots Hprefix _ _ _ _ _ E) as G6.
  set (lk := map _ _).
  assert (L : forall c x, In (c, Some x) lk <-> exists r data, In r errs /\ In (c, x, data) (chain_report e all conts r)).
  { intros c x. unfold lk. rewrite in_map_iff. split.
    - intros ([[c' x'] d] & [= -> ->] & K). apply in_flat_map in K as (r & Hr & K). exists r, d. auto.
    - intros (r & d & Hr & K). exists (c, x, d). split; [reflexivity|]. apply in_flat_map. exists r. auto. }
  assert (L0 : forall c, ~ In (c, None) lk) by (intros c; unfold lk; rewrite in_map_iff; intros (k & [=] & _)).
  clearbody lk.
  assert (U : forall l, In (TextModel.Unused l) errs -> l <> [] /\ forall i, In i l -> exists q, In q conts /\ attr (p_xml q) (u "id") = Some i).
  { intros l Hl. split; [|intros i Hi; apply G5; exists l; auto].
    unfold chains, TextModel.create_continuation_chains in E. destruct (TextModel.check_continuation_ids _ _) as [errs0 tk0] eqn:E0.
    destruct (TextModel.chains_loop _ _ _ _ _ _) as [[[chs0 used] errs1]|] eqn:El; [|discriminate]. injection E as _ <- _.
    pose proof (chains_loop_kinds _ _ _ _ _ _ _ El l) as K. cbn [snd] in K. apply in_app_iff in Hl as [Hl|Hl].
    - exfalso. apply K in Hl. clear -E0 Hl. unfold TextModel.check_continuation_ids in E0.
      pose proof (checked_ids roots (cont_places roots) [] before (TextModel.Unused l)) as K. rewrite E0 in K. cbn [fst] in K.
      apply K in Hl as [[]|[(p & _ & _ & [=])|(a & p & b & i & _ & _ & _ & [=])]].
    - apply in_app_iff in Hl as [Hl|Hl]; [apply descendant_kind in Hl as (d & pa & [=])|].
      clear -Hl. match goal with K : In _ (match ?l with _ => _ end) |- _ => destruct l end; [destruct Hl|]. destruct Hl as [[= <-]|[]]. discriminate. }
  unfold continuation_problems. fold conts. split; [|split; [|split; [|split; [|split; [|split; [|split]]]]]].
  - intros x. rewrite L. split.
    + intros ([k|k i|k i|k i|k pa|l] & d & Hr & K); try (cbn [chain_report In] in K; destruct K as [K|[]]; try discriminate K).
      * injection K as <- _. apply G1 in Hr as (p & Hp & Ep & ->). unfold all. rewrite xml_at_key by (apply conts_in, Hp). exists p. auto.
      * destruct (U l Hr) as [Hl Hi]. destruct (unused_report l Hi Hl) as (i & c & q & _ & _ & _ & R). rewrite R in K. destruct K as [K|[]]. discriminate K.
    + intros (q & Hq & <- & Eq). exists (TextModel.WithoutId (p_key q)), []. split; [apply G1; exists q; auto|]. cbn [chain_report In]. left.
      unfold all. rewrite xml_at_key by (apply conts_in, Hq). reflexivity.
  - intros x. rewrite L. split.
    + intros ([k|k i|k i|k i|k pa|l] & d & Hr & K); try (cbn [chain_report In] in K; destruct K as [K|[]]; try discriminate K).
      * injection K as <- _. apply G2 in Hr as (a & p & b & Ec & Ep & Hi & ->).
        assert (Hp : In p conts) by (rewrite Ec; apply in_elt).
        unfold all. rewrite xml_at_key by (apply conts_in, Hp). exists a, p, b, i. auto.
      * destruct (U l Hr) as [Hl Hi]. destruct (unused_report l Hi Hl) as (i & c & q & _ & _ & _ & R). rewrite R in K. destruct K as [K|[]]. discriminate K.
    + intros (a & q & b & i & Ec & <- & Eq & Hi). exists (TextModel.DuplicateId (p_key q) i), [(u "id", i)].
      split; [apply G2; exists a, q, b; auto|]. cbn [chain_report In]. left.
      assert (Hq : In q conts) by (rewrite Ec; apply in_elt).
      unfold all. rewrite xml_at_key by (apply conts_in, Hq). reflexivity.
  - intros x. rewrite L. split.
    + intros ([k|k i|k i|k i|k pa|l] & d & Hr & K); try (cbn [chain_report In] in K; destruct K as [K|[]]; try discriminate K).
      * injection K as <- _. apply G3 in Hr as (p & Hp & -> & Ho). unfold all. rewrite xml_at_key by (apply continuables_in, Hp). exists p, i. auto.
      * destruct (U l Hr) as [Hl Hi]. destruct (unused_report l Hi Hl) as (i & c & q & _ & _ & _ & R). rewrite R in K. destruct K as [K|[]]. discriminate K.
    + intros (p & i & Hp & <- & Ho). eexists (TextModel.InvalidId (p_key p) i), _. split; [apply G3; exists p; auto|]. cbn [chain_report In]. left.
      unfold all. rewrite xml_at_key by (apply continuables_in, Hp). reflexivity.
  - intros x. rewrite L. split.
    + intros ([k|k i|k i|k i|k pa|l] & d & Hr & K); try (cbn [chain_report In] in K; destruct K as [K|[]]; try discriminate K).
      * injection K as <- _. destruct (proj1 (G4 k) (ex_intro _ i Hr)) as (a & p & b & p' & q & Ec & -> & K).
        assert (Hp : In p (continuables roots)) by (rewrite Ec; apply in_elt).
        unfold all. rewrite xml_at_key by (apply continuables_in, Hp). exists a, p, b, p', q. tauto.
      * destruct (U l Hr) as [Hl Hi]. destruct (unused_report l Hi Hl) as (i & c & q & _ & _ & _ & R). rewrite R in K. destruct K as [K|[]]. discriminate K.
    + intros (a & p & b & p' & q & Ec & <- & K). destruct (proj2 (G4 (p_key p))) as (i & Hr); [exists a, p, b, p', q; tauto|].
      eexists (TextModel.Reused (p_key p) i), _. split; [exact Hr|]. cbn [chain_report In]. left.
      assert (Hp : In p (continuables roots)) by (rewrite Ec; apply in_elt).
      unfold all. rewrite xml_at_key by (apply continuables_in, Hp). reflexivity.
  - split.
    + intros (x & K). apply L in K as ([k|k i|k i|k i|k pa|l] & d & Hr & K); try (cbn [chain_report In] in K; destruct K as [K|[]]; discriminate K).
      destruct (U l Hr) as [Hl Hi]. destruct (unused_report l Hi Hl) as (i & c & q & Ki & Eq & Hq & R). exists q, i. split; [exact Hq|]. split; [exact Eq|].
      apply (G5 i). exists l. auto.
    + intros (q & i & Hq & Eq & Hu). destruct (proj2 (G5 i)) as (l & Hr & Hl); [split; [exists q; auto|exact Hu]|].
      destruct (U l Hr) as [Hn Hi]. destruct (unused_report l Hi Hn) as (j & c & q' & _ & _ & _ & R). exists (p_xml q').
      apply L. exists (TextModel.Unused l), c. split; [exact Hr|]. rewrite R. left. reflexivity.
  - intros x K. apply L in K as ([k|k i|k i|k i|k pa|l] & d & Hr & K); try (cbn [chain_report In] in K; destruct K as [K|[]]; discriminate K).
    destruct (U l Hr) as [Hl Hi]. destruct (unused_report l Hi Hl) as (i & c & q & Ki & Eq & Hq & R). rewrite R in K. destruct K as [[= <- _]|[]].
    exists q, i. split; [exact Hq|]. split; [reflexivity|]. split; [exact Eq|]. apply (G5 i). exists l. auto.
  - intros x. rewrite L. split.
    + intros ([k|k i|k i|k i|k pa|l] & d & Hr & K); try (cbn [chain_report In] in K; destruct K as [K|[]]; try discriminate K).
      * injection K as <- _. destruct (proj1 (G6 k) (ex_intro _ pa Hr)) as (p & q & Hp & -> & Hw).
        assert (Hq : In q conts) by (destruct Hw as [K _]; eapply continues_in, K).
        unfold all. rewrite xml_at_key by (apply conts_in, Hq). exists p, q. auto.
      * destruct (U l Hr) as [Hl Hi]. destruct (unused_report l Hi Hl) as (i & c & q & _ & _ & _ & R). rewrite R in K. destruct K as [K|[]]. discriminate K.
    + intros (p & q & Hp & <- & Hw). destruct (proj2 (G6 (p_key q))) as (pa & Hr); [exists p, q; auto|].
      assert (Hq : In q conts) by (destruct Hw as [K _]; eapply continues_in, K).
      eexists (TextModel.InvalidDescendant (p_key q) pa), _. split; [exact Hr|]. cbn [chain_report In]. left.
      unfold all. rewrite xml_at_key by (apply conts_in, Hq). reflexivity.
  - intros c [x|] K; [split; [|discriminate]|exfalso; exact (L0 c K)]. apply L in K as ([k|k i|k i|k i|k pa|l] & d & Hr & K);
      try (cbn [chain_report In] in K; destruct K as [[= <- _ _]|[]]; cbn [In]; tauto).
    destruct (U l Hr) as [Hl Hi]. destruct (unused_report l Hi Hl) as (i & c' & q & _ & _ & _ & R). rewrite R in K. destruct K as [[= <- _ _]|[]]. cbn [In]. tauto.
Qed.
End Reports.
