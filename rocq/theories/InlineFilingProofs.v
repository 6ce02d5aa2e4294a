(** Proofs about whole inline filings. *)
From Coq Require Import QArith Permutation Lia.
From Verif Require Import Base QNameModel QNameProofs ErrBase ErrTable ErrModel NumModel DateModel CtxModel CtxSpec CtxProofs InlineModel InlineSpec
  InlineProofs InlineStepProofs InlineDocProofs InlineFrame InlineFilingModel InlineFilingSpec.
From Verif Require TextModel TextSpec TextProofs LinkModel LinkSpec NetSpec FootModel FootSpec FootProps ConceptModel ConceptLoad CompModel FilingModel FilingSpec FilingProofs FilingStages TableProps.
Local Open Scope nat_scope.
Local Opaque u create insert.

(** ** Places *)

Lemma below_lies : forall r outside t above, In (t, above) (below outside r) <-> lies outside r t above.
Proof.
  fix IH 1. intros [tag attrs sc text kids tail] outside t above. cbn [below].
  set (r := Tree tag attrs sc text kids tail).
  assert (G : forall k, In k kids -> In (t, above) (below (r :: outside) k) <-> lies (r :: outside) k t above).
  { clear -IH. clearbody r. induction kids as [|k ks IHk]; [intros k []|]. intros k' [<-|Hk]; [apply IH|apply IHk, Hk]. }
  rewrite in_flat_map. split.
  - intros (k & Hk & [[= <- <-]|H]); [apply lies_here, Hk|]. eapply lies_deeper; [exact Hk|]. apply G, H. exact Hk.
  - intros H. inversion H as [k Hk|k t' ab Hk Hl]; subst.
    + exists t. cbn in Hk. split; [exact Hk|]. left. reflexivity.
    + exists k. cbn in Hk. split; [exact Hk|]. right. apply G; assumption.
Qed.

Lemma number_keys n l : map p_key (number_places n l) = seq n (length l).
Proof.
  unfold number_places. rewrite map_map. cbn [p_key]. revert n. induction l as [|q l IH]; intros n; [reflexivity|]. cbn. f_equal. apply IH.
Qed.
Lemma number_in n l p : In p (number_places n l) -> In (p_tree p, p_above p) l.
Proof.
  unfold number_places. intros H. apply in_map_iff in H as ([k [t ab]] & <- & H). cbn. apply in_combine_r in H. exact H.
Qed.
Lemma number_all n l t ab : In (t, ab) l -> exists p, In p (number_places n l) /\ p_tree p = t /\ p_above p = ab.
Proof.
  unfold number_places. revert n. induction l as [|q l IH]; intros n [].
  - subst q. exists (Place n t ab). cbn. auto.
  - destruct (IH (S n) H) as (p & Hp & H1 & H2). exists p. cbn. auto.
Qed.
Lemma pages_keys roots : forall n, exists m, map p_key (flat_map snd (pages n roots)) = seq n m.
Proof.
  induction roots as [|r rs IH]; intros n; cbn [pages flat_map]; [exists 0; reflexivity|].
  rewrite map_app. cbn [snd]. rewrite number_keys. destruct (IH (n + length (below [] r))) as (m & ->).
  exists (length (below [] r) + m). rewrite seq_app. reflexivity.
Qed.
Lemma all_places_keys roots : NoDup (map p_key (all_places roots)).
Proof. destruct (pages_keys roots 0) as (m & E). unfold all_places. rewrite E. apply seq_NoDup. Qed.
Lemma key_inj roots p q : In p (all_places roots) -> In q (all_places roots) -> p_key p = p_key q -> p = q.
Proof.
  generalize (all_places_keys roots). generalize (all_places roots). induction l as [|a l IH]; intros N Hp Hq E; [destruct Hp|].
  cbn in N. inversion N as [|? ? Hn N']; subst. destruct Hp as [->|Hp], Hq as [->|Hq]; auto.
  - destruct Hn. rewrite E. apply in_map, Hq.
  - destruct Hn. rewrite <- E. apply in_map, Hp.
Qed.
Lemma place_at_key roots p : In p (all_places roots) -> place_at (all_places roots) (p_key p) = Some p.
Proof.
  intros Hp. unfold place_at. destruct (find _ _) as [q|] eqn:E.
  - apply find_some in E as [Hq E]. apply Nat.eqb_eq in E. f_equal. apply (key_inj roots); auto.
  - apply (find_none _ _ E) in Hp. rewrite Nat.eqb_refl in Hp. discriminate.
Qed.

Lemma page_in roots : forall n page, In page (pages n roots) ->
  In (fst page) roots /\ exists m, snd page = number_places m (below [] (fst page)).
Proof.
  induction roots as [|r rs IH]; intros n page; cbn [pages]; [intros []|]. intros [<-|H].
  - split; [left; reflexivity|exists n; reflexivity].
  - destruct (IH _ _ H) as [H1 H2]. split; [right; exact H1|exact H2].
Qed.
Lemma page_of roots : forall n r, In r roots -> exists m, In (r, number_places m (below [] r)) (pages n roots).
Proof.
  induction roots as [|r rs IH]; intros n r' []; cbn [pages].
  - subst. exists n. left. reflexivity.
  - destruct (IH (n + length (below [] r)) r' H) as (m & Hm). exists m. right. exact Hm.
Qed.

Lemma p_xml_tag t : x_tag (plain t) = t_tag t.
Proof. destruct t. reflexivity. Qed.
Lemma has_tag_is tag x : has_tag tag x = true <-> x_tag x = Some tag.
Proof.
  unfold has_tag. destruct (opt_eqb_spec str_eqb str_eqb_spec (x_tag x) (Some tag)) as [E|E]; split; congruence.
Qed.

Lemma ix_places_written names roots t above :
  (exists p, In p (flat_map (ix_places names) (pages 0 roots)) /\ p_tree p = t /\ p_above p = above) <->
  exists name, In name names /\ ix_element roots name t above.
Proof.
  split.
  - intros (p & Hp & <- & <-). apply in_flat_map in Hp as (page & Hpage & Hp). unfold ix_places in Hp.
    destruct (dict_get _ _ _) as [uri|] eqn:Eu; [|destruct Hp]. apply filter_In in Hp as [Hp Ht].
    apply existsb_exists in Ht as (name & Hn & Ht). destruct (page_in _ _ _ Hpage) as [Hr (m & Em)].
    exists name. split; [exact Hn|]. exists (fst page), uri. rewrite Em in Hp. apply number_in in Hp.
    split; [exact Hr|]. split; [exact Eu|]. split; [apply below_lies, Hp|]. apply has_tag_is in Ht. unfold p_xml in Ht. rewrite p_xml_tag in Ht. exact Ht.
  - intros (name & Hn & r & uri & Hr & Eu & Hl & Ht). apply below_lies in Hl. destruct (page_of roots 0 r Hr) as (m & Hm).
    destruct (number_all m _ _ _ Hl) as (p & Hp & H1 & H2). exists p. split; [|auto]. apply in_flat_map. eexists. split; [exact Hm|].
    unfold ix_places. cbn [fst snd]. rewrite Eu. apply filter_In. split; [exact Hp|]. apply existsb_exists. exists name. split; [exact Hn|].
    apply has_tag_is. unfold p_xml. rewrite p_xml_tag, H1. exact Ht.
Qed.
Lemma ix_places_in names roots p : In p (flat_map (ix_places names) (pages 0 roots)) -> In p (all_places roots).
Proof.
  intros Hp. apply in_flat_map in Hp as (page & Hpage & Hp). unfold ix_places in Hp.
  destruct (dict_get _ _ _) as [uri|]; [|destruct Hp]. apply filter_In in Hp as [Hp _]. apply in_flat_map. eauto.
Qed.

(** ** Chains *)

Lemma chain_loop_any index e : forall fuel o c0 used errs r,
  TextModel.chain_loop fuel index e o c0 used errs = Some r ->
  forall used' errs', exists r', TextModel.chain_loop fuel index e o c0 used' errs' = Some r' /\ fst (fst r') = fst (fst r).
Proof.
  induction fuel as [|fuel IH]; intros o c0 used errs r; (destruct o as [id|]; cbn [TextModel.chain_loop]; [|intros [= <-]; eauto]).
  - discriminate.
  - destruct (dict_get _ _ _) as [c|]; [|intros [= <-]; eauto]. intros H used' errs'. eapply IH. exact H.
Qed.
Lemma chains_loop_any fuel index : forall els cs used errs r,
  TextModel.chains_loop fuel index els cs used errs = Some r ->
  forall used' errs', exists r', TextModel.chains_loop fuel index els cs used' errs' = Some r' /\ fst (fst r') = fst (fst r).
Proof.
  induction els as [|e els IH]; intros cs used errs r; cbn [TextModel.chains_loop]; [intros [= <-]; eauto|].
  destruct (TextModel.chain_loop _ _ _ _ _ _ _) as [[[chain used1] errs1]|] eqn:E; [|discriminate]. intros H used' errs'.
  destruct (chain_loop_any _ _ _ _ _ _ _ _ E used' errs') as ([[chain' used2] errs2] & -> & Ec). cbn in Ec. subst chain'. eapply IH, H.
Qed.
Lemma chains_any fuel roots taken r : chains fuel roots taken = Some r ->
  exists r', chains fuel roots [] = Some r' /\ fst (fst r') = fst (fst r).
Proof.
  unfold chains, TextModel.create_continuation_chains.
  destruct (TextModel.check_continuation_ids _ taken) as [e1 t1]. destruct (TextModel.check_continuation_ids _ []) as [e2 t2].
  destruct (TextModel.chains_loop _ _ _ _ _ e1) as [[[cs used] errs]|] eqn:E; [|discriminate]. intros [= <-].
  destruct (chains_loop_any _ _ _ _ _ _ _ E [] e2) as ([[cs' used'] errs'] & -> & Ec). cbn in Ec. subst cs'. eexists. split; reflexivity.
Qed.

Lemma chains_loop_all conts fuel : forall els cs used errs r,
  TextModel.chains_loop fuel (TextModel.continuation_index conts) els cs used errs = Some r ->
  exists cs', fst (fst r) = cs ++ cs' /\ map fst cs' = els /\ Forall (TextProofs.chain_ok conts) cs'.
Proof.
  induction els as [|e els IH]; intros cs used errs r; cbn [TextModel.chains_loop].
  - intros [= <-]. exists []. rewrite app_nil_r. auto.
  - destruct (TextModel.chain_loop _ _ _ _ _ _ _) as [[[chain used1] errs1]|] eqn:E; [|discriminate]. intros H.
    apply IH in H as (cs' & H1 & H2 & H3). apply TextProofs.chain_loop_ends in E as (ch & d & Hf & _ & Ec). cbn in Ec. subst ch.
    exists ((e, chain) :: cs'). rewrite H1, <- app_assoc. split; [reflexivity|]. cbn. rewrite H2. split; [reflexivity|]. constructor; [|exact H3].
    exists d. exact Hf.
Qed.

Lemma find_last_with {A} (P : A -> Prop) (p : A -> bool) (l : list A) q : (forall x, p x = true <-> P x) ->
  find p (rev l) = Some q -> last_with P l q.
Proof.
  intros Hp. induction l as [|a l IH] using rev_ind; [discriminate|]. rewrite rev_app_distr. cbn [rev app find].
  destruct (p a) eqn:Ea.
  - intros [= ->]. exists l, []. split; [reflexivity|]. split; [apply Hp, Ea|intros y []].
  - intros H. destruct (IH H) as (b & c & -> & Hq & Hc). exists b, (c ++ [a]). split; [rewrite <- app_assoc; reflexivity|].
    split; [exact Hq|]. intros y Hy. apply in_app_iff in Hy as [Hy|[<-|[]]]; [apply Hc, Hy|]. rewrite <- Hp. congruence.
Qed.
Lemma follows_goes all conts : forall o chain d, TextSpec.follows (map (celem_of all) conts) o chain d ->
  exists qs, goes_on conts o qs /\ chain = map (celem_of all) qs /\ incl qs conts.
Proof.
  intros o chain d H. induction H as [|id Ht|id c chain d Ht Hf (qs & Hq & -> & Hi)].
  - exists []. split; [constructor|]. split; [reflexivity|intros x []].
  - exists []. split; [|split; [reflexivity|intros x []]]. constructor. intros q Hq Hid.
    apply TextProofs.target_none in Ht. apply Ht. exists (celem_of all q). split; [apply in_map, Hq|exact Hid].
  - unfold TextSpec.target in Ht. rewrite <- map_rev in Ht.
    assert (G : exists q, c = celem_of all q /\ find (fun q => opt_eqb str_eqb (attr (p_xml q) (u "id")) (Some id)) (rev conts) = Some q).
    { clear -Ht. revert Ht. generalize (rev conts). intros l. induction l as [|q l IH]; [discriminate|]. cbn [map find].
      change (TextModel.ce_id (celem_of all q)) with (attr (p_xml q) (u "id")).
      destruct (opt_eqb str_eqb (attr (p_xml q) (u "id")) (Some id)); [intros [= <-]; eauto|exact IH]. }
    destruct G as (q & -> & Eq). exists (q :: qs). split; [|split; [reflexivity|]].
    + econstructor; [|exact Hq]. eapply find_last_with; [|exact Eq]. intros x. cbv beta.
      destruct (opt_eqb_spec str_eqb str_eqb_spec (attr (p_xml x) (u "id")) (Some id)) as [E|E]; split; congruence.
    + intros x [<-|Hx]; [|apply Hi, Hx]. apply find_some in Eq as [Hx _]. apply in_rev, Hx.
Qed.

(** The chain of a continuable element *)
Lemma chain_parts fuel roots r p : chains fuel roots [] = Some r ->
  In p (fact_places roots) /\ contains (u "nonNumeric") (match tag_name (p_xml p) with Ok t => t | Raise _ => [] end) = true \/ In p (note_places roots) ->
  parts (cont_places roots) p (p_tree p :: chain_trees (all_places roots) (chains_of fuel roots) (p_key p)).
Proof.
  intros Hr Hp. unfold chains_of. rewrite Hr. destruct r as [[cs errs] tk]. unfold chains, TextModel.create_continuation_chains in Hr.
  destruct (TextModel.check_continuation_ids _ []) as [e0 t0].
  destruct (TextModel.chains_loop _ _ _ _ _ e0) as [[[cs' used] errs']|] eqn:E; [|discriminate]. injection Hr as -> _ _.
  apply chains_loop_all in E as (cs' & E & Hels & Hok). cbn in E. subst cs'.
  set (all := all_places roots) in *.
  assert (Hin : In (celem_of all p) (map fst cs)).
  { rewrite Hels. apply in_app_iff. destruct Hp as [[Hp Ht]|Hp]; [left|right; apply in_map, Hp].
    apply filter_In. split; [apply in_map, Hp|exact Ht]. }
  assert (Hall : forall c, In c (map fst cs) -> exists q, In q all /\ c = celem_of all q).
  { intros c Hc. rewrite Hels in Hc. apply in_app_iff in Hc as [Hc|Hc].
    - apply filter_In in Hc as [Hc _]. apply in_map_iff in Hc as (q & <- & Hq). exists q. split; [apply (ix_places_in _ _ _ Hq)|reflexivity].
    - apply in_map_iff in Hc as (q & <- & Hq). exists q. split; [apply (ix_places_in _ _ _ Hq)|reflexivity]. }
  assert (Hpa : In p all) by (destruct Hp as [[Hp _]|Hp]; apply (ix_places_in _ _ _ Hp)).
  unfold chain_trees, chain_keys. destruct (find _ cs) as [c|] eqn:Ef.
  2:{ apply in_map_iff in Hin as (c & Ec & Hc). apply (find_none _ _ Ef) in Hc. rewrite Ec in Hc. cbn in Hc. rewrite Nat.eqb_refl in Hc. discriminate. }
  apply find_some in Ef as [Hc Ek]. apply Nat.eqb_eq in Ek.
  destruct (Hall (fst c) (in_map fst _ _ Hc)) as (q & Hq & Eq). rewrite Eq in Ek. cbn in Ek.
  assert (q = p) as -> by (apply (key_inj roots); assumption).
  rewrite Forall_forall in Hok. destruct (Hok c Hc) as (d & Hf). rewrite Eq in Hf.
  apply follows_goes in Hf as (qs & Hg & -> & Hi). exists qs. split; [exact Hg|]. f_equal.
  assert (Hi' : incl qs all) by (intros x Hx; apply (ix_places_in _ _ _ (Hi x Hx))). clear -Hi'.
  induction qs as [|q qs IH]; [reflexivity|]. cbn [map flat_map]. unfold all at 1. cbn [celem_of TextModel.ce_key].
  rewrite place_at_key by (apply Hi'; left; reflexivity). cbn [app]. f_equal. apply IH. intros x Hx. apply Hi'. right. exact Hx.
Qed.

Lemma extracted ts t c : TextModel.extract_relevant_content_from_continuation_chain (map marked (t :: ts)) = Ok c ->
  contains_no_comment (t :: ts) /\ TextSpec.inside c = TextSpec.fact_content (map marked (t :: ts)).
Proof.
  intros H. cbn [map] in H. pose proof (TextProofs.chain_content (marked t) (map marked ts)) as G. unfold contains_no_comment. cbn [map].
  destruct (TextSpec.has_remark _) eqn:Er.
  - congruence.
  - destruct G as (n & E & Hi & _). split; [reflexivity|]. congruence.
Qed.

(** ** Documents *)

Lemma plain_scope t : x_scope (plain t) = t_scope t.
Proof. destruct t. reflexivity. Qed.
Lemma instance_instance trees t : In t (instance_roots trees) -> is_instance (plain t) = true.
Proof. intros H. apply filter_In in H. tauto. Qed.
Lemma pages_roots roots : forall n, map fst (pages n roots) = roots.
Proof. induction roots as [|r rs IH]; intros n; cbn; [reflexivity|]. f_equal. apply IH. Qed.
Lemma filter_all {A} (p : A -> bool) l : (forall x, In x l -> p x = true) -> filter p l = l.
Proof.
  induction l as [|x l IH]; intros H; [reflexivity|]. cbn. rewrite H by (left; reflexivity). f_equal. apply IH. intros y Hy. apply H. right. exact Hy.
Qed.
Lemma filter_map_comm {A B} (g : A -> B) (p : B -> bool) (q : A -> bool) l : (forall x, q x = p (g x)) -> filter p (map g l) = map g (filter q l).
Proof. intros E. induction l as [|x l IH]; [reflexivity|]. cbn. rewrite E. destruct (p (g x)); cbn; rewrite IH; reflexivity. Qed.

Section Documents.
Variable tostring : TextModel.xml -> str.
Variable fuel : nat.
Variable trees : list tree.
Let roots := instance_roots trees.

Lemma documents_instances : instances (documents tostring fuel roots) = documents tostring fuel roots.
Proof.
  unfold instances. apply filter_all. intros d Hd. unfold documents in Hd. apply in_map_iff in Hd as (page & <- & Hp). cbn [d_root].
  apply (instance_instance trees). apply page_in in Hp. apply Hp.
Qed.
Lemma documents_roots : map d_root (instances (documents tostring fuel roots)) = map plain roots.
Proof.
  rewrite documents_instances. unfold documents. rewrite map_map. cbn [d_root]. rewrite <- (pages_roots roots 0) at 2. rewrite map_map. reflexivity.
Qed.
Lemma documents_facts : doc_facts (documents tostring fuel roots) =
  map (node_of tostring (all_places roots) (chains_of fuel roots)) (fact_places roots).
Proof.
  unfold doc_facts. rewrite documents_instances. unfold documents, fact_places. generalize (all_places roots) (chains_of fuel roots). intros all cs.
  induction (pages 0 roots) as [|page l IH]; [reflexivity|]. cbn [map flat_map]. rewrite map_app, IH. f_equal.
  unfold fact_nodes, ix_places. cbn [d_root d_nodes]. rewrite plain_scope. destruct (dict_get _ _ _) as [uri|]; [|reflexivity].
  apply filter_map_comm. intros p. cbn [existsb node_of n_el]. rewrite orb_false_r. reflexivity.
Qed.
Lemma documents_parts name : kids_named name (doc_headers (documents tostring fuel roots)) = header_parts name roots.
Proof. unfold doc_headers, header_parts. rewrite documents_roots. reflexivity. Qed.
Lemma documents_resources name : kids_named name (doc_resources (documents tostring fuel roots)) = resource_parts name roots.
Proof. unfold doc_resources, resource_parts. rewrite documents_parts. reflexivity. Qed.

Lemma tag_nonNumeric p : tag_name (p_xml p) = Ok (u "ix:nonNumeric") ->
  contains (u "nonNumeric") (match tag_name (p_xml p) with Ok t => t | Raise _ => [] end) = true.
Proof. intros ->. Local Transparent u. vm_compute. reflexivity. Local Opaque u. Qed.

Lemma node_of_is r p : chains fuel roots [] = Some r -> In p (fact_places roots) ->
  is_node tostring (cont_places roots) p (node_of tostring (all_places roots) (chains_of fuel roots) p).
Proof.
  intros Hr Hp. unfold is_node. cbn [node_of n_el n_parent n_tails n_markup n_content].
  repeat (split; [reflexivity|]).
  assert (G : forall c, tag_name (p_xml p) = Ok (u "ix:nonNumeric") ->
    TextModel.extract_relevant_content_from_continuation_chain
      (map marked (p_tree p :: chain_trees (all_places roots) (chains_of fuel roots) (p_key p))) = Ok c ->
    exists ts, parts (cont_places roots) p ts /\ contains_no_comment ts /\ TextSpec.inside c = TextSpec.fact_content (map marked ts) /\
      TextModel.extract_relevant_content_from_continuation_chain (map marked ts) = Ok c).
  { intros c Ht Hc. eexists. split; [eapply chain_parts; [exact Hr|left; split; [exact Hp|apply tag_nonNumeric, Ht]]|].
    destruct (extracted _ _ _ Hc) as [K1 K2]. split; [exact K1|]. split; [exact K2|exact Hc]. }
  split; intros c Ht; unfold text_content;
    (destruct (TextModel.extract_relevant_content_from_continuation_chain _) as [x|] eqn:E; [|discriminate]); cbn [bind]; intros [= <-];
    destruct (G x Ht eq_refl) as (ts & H1 & H2 & H3 & H4); exists ts.
  - split; [exact H1|]. split; [exact H2|]. rewrite <- H3. apply TextProofs.text_of_inside. rewrite H3. exact H2.
  - exists x. auto.
Qed.
End Documents.

(** ** Stages *)

Lemma facts_folded rep pf ev cs : forall l last taken fr s taken' fr' s',
  parse_facts rep pf ev cs l last taken fr s = Ok ((taken', fr'), s') -> exists fs, fr' = fold_left ifacts_upsert fs fr.
Proof.
  induction l as [|n l IH]; intros last taken fr s taken' fr' s'; cbn [parse_facts].
  - intros [= _ <- _]. exists []. reflexivity.
  - unfold mbind at 1. destruct (lift _ _) as [[tag s1]|]; [|discriminate]. unfold mbind at 1.
    destruct (fact_context _ _ _ _ s1) as [[[c|] s2]|]; [|apply IH|discriminate]. unfold mbind at 1.
    destruct (_ s2) as [[[[f t]|] s3]|]; [| |discriminate].
    + intros H. apply IH in H as (fs & ->). exists (f :: fs). reflexivity.
    + destruct last as [f|]; [|discriminate]. intros H. apply IH in H as (fs & ->). exists (f :: fs). reflexivity.
Qed.
Lemma inline_folded pd rep pf ev k docs s r taken cs fr s' :
  parse_inline pd rep pf ev k docs s = Ok ((r, (taken, cs, fr)), s') -> exists fs, fr = fold_left ifacts_upsert fs no_facts.
Proof.
  unfold parse_inline, mbind. intros H.
  repeat match type of H with
  | match ?m with Ok _ => _ | Raise _ => _ end = _ => let E := fresh "E" in destruct m as [[? ?]|] eqn:E; [|discriminate H]
  end.
  cbn in H. match goal with E : parse_facts _ _ _ _ _ _ _ _ _ = Ok (?p, _) |- _ => destruct p as [t' fr']; apply facts_folded in E as (fs & E) end.
  cbn in H. injection H as _ _ _ <- _. eauto.
Qed.
Lemma plain_own fs : FilingProofs.by_own_id (plain_facts (fold_left ifacts_upsert fs no_facts)).
Proof.
  assert (G : forall fs r, (forall i x, In (i, x) (by_id r) -> if_id x = Some i) ->
    forall i x, In (i, x) (by_id (fold_left ifacts_upsert fs r)) -> if_id x = Some i).
  { clear fs. induction fs as [|f fs IH]; intros r Hr; [exact Hr|]. cbn [fold_left]. apply IH. intros i x. unfold ifacts_upsert.
    destruct (if_id f) as [j|] eqn:E; cbn [by_id]; [|apply Hr]. intros H. apply FilingProofs.dict_set_cases in H as [[-> ->]|H]; [exact E|exact (Hr _ _ H)]. }
  intros i x H. unfold plain_facts in H. cbn [fr_by_id] in H. apply in_map_iff in H as ([j y] & [= -> <-] & H). apply (G fs no_facts) in H; [exact H|intros ? ? []].
Qed.

Definition html_scope : scope := [(Some (u "html"), u "http://www.w3.org/1999/xhtml")].
Lemma inline_namespaces_create docs :
  inline_namespaces docs = create_nsmap ([html_scope] ++ flat_map (fun d => x_scope d :: map x_scope (descendants d)) docs).
Proof. reflexivity. Qed.

Lemma notes_are n nws : Forall (FilingStages.is_note n) (note_networks n nws).
Proof.
  unfold note_networks. apply Forall_forall. intros x Hx. apply in_map_iff in Hx as ([k w] & <- & H). split; [eexists; reflexivity|].
  apply in_combine_l, in_seq in H as [H _]. exact H.
Qed.

Section Stages.
Variable e : FootModel.env.
Variable tostring : TextModel.xml -> str.
Variable parse_date : str -> res date.
Variable py_float : str -> option bool.
Variable era_valid : list (part * str) -> res bool.
Variable element_str : xml -> str.
Variable number : str -> Q.

(** The filing is read from the documents, in some order of the sets. *)
Definition reads_inline (trees : list (str * tree)) (es : repo xml) (f : inline_filing) : Prop :=
  exists fuel edge_order root_order shuffle, LinkSpec.orders edge_order root_order /\ NetSpec.some_order shuffle /\
    parse_inline_filing e tostring fuel parse_date py_float era_valid element_str number edge_order root_order shuffle trees es = Ok f.
Definition plain_trees (trees : list (str * tree)) : list (str * xml) := map (fun p => (fst p, plain (snd p))) trees.
Lemma plain_values trees : dict_values (plain_trees trees) = map plain (dict_values trees).
Proof. unfold dict_values, plain_trees. rewrite !map_map. reflexivity. Qed.

Lemma inline_stages trees es f : reads_inline trees es f ->
  let roots := instance_roots (dict_values trees) in
  exists fuel es1 r taken s s2,
    parse_inline parse_date (FilingModel.repository_of (FilingModel.fl_elements (il_filing f))) py_float era_valid
      (continuations e fuel roots) (documents tostring fuel roots) empty_state = Ok ((r, (taken, il_contexts f, il_facts f)), s) /\
    read_footnotes e tostring fuel roots r taken (il_facts f) (after es1 s) = Ok ((il_notes f, il_networks f), s2) /\
    FilingStages.assembled element_str number (plain_trees trees) es es1 (s_errors s2)
      (note_networks (length (FilingModel.fl_nets (il_filing f))) (il_networks f)) [html_scope] (il_filing f) /\
    FilingModel.fl_facts (il_filing f) = plain_facts (il_facts f) /\ FilingModel.fl_tables (il_filing f) = [].
Proof.
  intros (fuel & eo & ro & sh & Ho & Hs & H) roots. unfold parse_inline_filing in H. cbv zeta in H. fold (plain_trees trees) in H. fold roots in H.
  destruct (ConceptModel.parse_report_elements _ _) as [[rp es1]|] eqn:E1; [|discriminate]. cbn [bind fst snd] in H.
  replace (State es1 [] [] empty_facts) with (after es1 empty_state) in H by (unfold after; cbn; rewrite app_nil_r; reflexivity).
  rewrite fr_inline in H. destruct (parse_inline _ _ _ _ _ _ empty_state) as [[[r [[taken cs] fs]] s]|] eqn:E2; [|discriminate]. cbn [bind fst snd] in H.
  destruct (read_footnotes _ _ _ _ _ _ _ _) as [[[ns nws] s2]|] eqn:E3; [|discriminate]. cbn [bind fst snd] in H.
  destruct (FilingModel.read_networks _ _ _ _ _ _ _ _ _ _) as [[ws st]|] eqn:E4; [|discriminate]. cbn [bind fst snd] in H.
  destruct (FilingModel.read_tables _ _ _ _) as [t|] eqn:E5; [|discriminate]. cbn [bind fst snd] in H.
  destruct (CompModel.parse_components _ _ _) as [[cps es2]|] eqn:E6; [|discriminate]. cbn [bind fst snd] in H.
  injection H as <-. cbn [il_filing il_facts il_contexts il_notes il_networks FilingModel.fl_elements FilingModel.fl_nets FilingModel.fl_facts FilingModel.fl_tables].
  exists fuel, es1, r, taken, s, s2. split; [exact E2|]. split; [exact E3|].
  split; [|split; [reflexivity|exact (TableProps.C59_never_stored_refuted _ _ _ E5)]].
  pose proof (FilingProofs.elements_stored _ _ _ E1) as (reg & Hn & Hr). cbn [fst] in Hr.
  constructor; cbn [FilingModel.fl_elements FilingModel.fl_facts FilingModel.fl_nets FilingModel.fl_links FilingModel.fl_networks FilingModel.fl_components FilingModel.fl_namespaces FilingModel.fl_errors].
  - eauto.
  - exact E1.
  - apply inline_folded in E2 as (l & ->). apply plain_own.
  - exists eo, ro, fuel, sh. split; [exact Ho|]. split; [exact Hs|]. rewrite plain_values. exact E4.
  - apply notes_are.
  - reflexivity.
  - rewrite plain_values. exact E6.
  - rewrite plain_values. apply inline_namespaces_create.
Qed.
End Stages.
