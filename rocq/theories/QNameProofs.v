(** Lemmas for C32 and C33. *)
From Verif Require Import Base Regex RegexProofs PyNum NetSpec QNameModel QNameSpec.

Lemma qname_eqb_spec a b : reflect (a = b) (qname_eqb a b).
Proof.
  destruct a as [a1 a2 a3], b as [b1 b2 b3]; unfold qname_eqb; cbn.
  destruct (str_eqb_spec a1 b1), (str_eqb_spec a2 b2), (str_eqb_spec a3 b3); cbn;
    constructor; congruence.
Qed.

Lemma key_eqb_spec (a b : option str) : reflect (a = b) (key_eqb a b).
Proof. apply opt_eqb_spec, str_eqb_spec. Qed.

(** ** The two patterns *)

(** A greedy repetition takes a maximal run when what follows then matches. *)
Lemma rep_max {R} f : forall p lo s (k : str -> option R) x,
  forallb f p = true -> match s with c :: _ => f c = false | [] => True end ->
  lo <= length p -> k s = Some x -> rep f lo None (p ++ s) k = Some x.
Proof.
  induction p as [|a p IH]; intros lo s k x Hp Hs Hlo Hk; cbn in *.
  - assert (lo = 0) as -> by lia. destruct s as [|c s]; cbn; [exact Hk|].
    rewrite Hs. exact Hk.
  - apply andb_prop in Hp as [Ha Hp]. rewrite Ha.
    rewrite (IH (pred lo) s k x); auto. lia.
Qed.

Lemma none_of_mem c x : cset_mem (none_of c) x = negb (N.eqb x c).
Proof.
  unfold cset_mem, none_of; cbn. rewrite orb_false_r.
  destruct (N.eqb_spec x c) as [->|Hn]; cbn.
  - rewrite !N.leb_refl; reflexivity.
  - destruct (N.leb_spec c x), (N.leb_spec x c); cbn; try reflexivity. lia.
Qed.

Lemma without_all c s : without c s -> forallb (cset_mem (none_of c)) s = true.
Proof.
  intros H. apply forallb_forall. intros x Hx. rewrite none_of_mem.
  destruct (N.eqb_spec x c); [subst; contradiction|reflexivity].
Qed.

Lemma all_without c s : forallb (cset_mem (none_of c)) s = true -> without c s.
Proof.
  intros H Hin. rewrite forallb_forall in H. specialize (H c Hin).
  rewrite none_of_mem, N.eqb_refl in H. discriminate.
Qed.

Lemma length_pos {A} (l : list A) : l <> [] -> 1 <= length l.
Proof. destruct l; cbn; [congruence|lia]. Qed.

Lemma firstn_diff {A} (p s : list A) : firstn (length (p ++ s) - length s) (p ++ s) = p.
Proof. apply firstn_app_exact. Qed.

Lemma clark_re_to_clark uri l :
  uri <> [] -> without (ch "}") uri -> l <> [] -> without (ch "{") l ->
  re_match clark_re (to_clark uri l) = Some [(2, l); (1, uri)].
Proof.
  intros Hu Hu' Hl Hl'. unfold re_match, clark_re, to_clark.
  cbn [rseq fold_right mt].
  replace (strip_prefix (u "{") (u "{" ++ uri ++ u "}" ++ l)) with (Some (uri ++ u "}" ++ l))
    by reflexivity.
  apply rep_max.
  - apply without_all; exact Hu'.
  - reflexivity.
  - apply length_pos; exact Hu.
  - rewrite firstn_diff.
    replace (strip_prefix (u "}") (u "}" ++ l)) with (Some l) by reflexivity.
    rewrite <- (app_nil_r l) at 1. apply rep_max.
    + apply without_all; exact Hl'.
    + exact I.
    + apply length_pos; exact Hl.
    + cbn [at_end length]. rewrite Nat.sub_0_r, firstn_all. reflexivity.
Qed.

Lemma colon_re_prefixed s p l :
  is_prefixed s p l -> re_match colon_re s = Some [(2, l); (1, p)].
Proof.
  intros (-> & Hp & Hl & Hp' & Hl'). unfold re_match, colon_re.
  cbn [rseq fold_right mt].
  apply rep_max.
  - apply without_all; exact Hp'.
  - reflexivity.
  - apply length_pos; exact Hp.
  - rewrite firstn_diff.
    replace (strip_prefix (u ":") (u ":" ++ l)) with (Some l) by reflexivity.
    rewrite <- (app_nil_r l) at 1. apply rep_max.
    + apply without_all; exact Hl'.
    + exact I.
    + apply length_pos; exact Hl.
    + cbn [at_end length]. rewrite Nat.sub_0_r, firstn_all. reflexivity.
Qed.

Lemma cap_1 a b : cap [(2, b); (1, a)] 1 = a.
Proof. reflexivity. Qed.

Lemma cap_2 a b : cap [(2, b); (1, a)] 2 = b.
Proof. reflexivity. Qed.

Lemma at_end_cases s : at_end s = true -> s = [] \/ s = [10%N].
Proof.
  destruct s as [|c [|d s]]; cbn; intros H; [auto| |discriminate].
  apply N.eqb_eq in H; subst; auto.
Qed.

Lemma colon_re_some s c : re_match colon_re s = Some c -> exists p l, is_prefixed s p l.
Proof.
  intros H. apply re_match_sound in H as (s' & H).
  cbn [colon_re rseq fold_right MT] in H.
  destruct H as (s1 & c1 & (c0 & p & (p0 & E0 & Hp & Lp & _ & _) & E1 & _) & s2 & c2 & (E2 & _)
                 & s3 & c3 & (c4 & l & (l0 & E3 & Hl & Ll & _ & _) & E4 & _)
                 & s4 & c5 & (He & -> & _) & (-> & _)).
  clear E1 E4. exists p0. 
  assert (Hp1 : p0 <> []) by (intros ->; cbn in Lp; lia).
  assert (Hl1 : l0 <> []) by (intros ->; cbn in Ll; lia).
  apply all_without in Hp, Hl.
  apply at_end_cases in He as [-> | ->].
  - exists l0. subst s s1 s2. rewrite app_nil_r.
    repeat split; assumption.
  - exists (l0 ++ [10%N]). subst s s1 s2. repeat split; try assumption.
    + destruct l0; discriminate.
    + unfold without. rewrite in_app_iff. intros [H|[H|[]]]; [contradiction|discriminate].
Qed.

Lemma clark_re_some s c :
  re_match clark_re s = Some c -> exists t, s = ch "{" :: t.
Proof.
  intros H. apply re_match_sound in H as (s' & H).
  cbn [clark_re rseq fold_right MT] in H.
  destruct H as (s1 & c1 & (E & _) & _). exists s1. exact E.
Qed.

Lemma clark_re_none s : without (ch "{") s -> re_match clark_re s = None.
Proof.
  intros H. destruct (re_match clark_re s) eqn:E; [|reflexivity].
  apply clark_re_some in E as (t & ->). exfalso; apply H; left; reflexivity.
Qed.

(** At the first delimiter a text splits in one way only. *)
Lemma split_unique c (a b a' b' : str) :
  without c a -> without c a' -> a ++ c :: b = a' ++ c :: b' -> a = a' /\ b = b'.
Proof.
  unfold without. revert a'; induction a as [|x a IH]; intros [|y a'] Ha Ha' E; cbn in E.
  - inversion E; auto.
  - inversion E; subst. exfalso; apply Ha'; left; reflexivity.
  - inversion E; subst. exfalso; apply Ha; left; reflexivity.
  - inversion E; subst. destruct (IH a') as [-> ->]; auto.
    + intros H; apply Ha; right; exact H.
    + intros H; apply Ha'; right; exact H.
Qed.

Lemma is_prefixed_unique s p l p' l' :
  is_prefixed s p l -> is_prefixed s p' l' -> p = p' /\ l = l'.
Proof.
  intros (-> & _ & _ & H & _) (E & _ & _ & H' & _).
  exact (split_unique (ch ":") p l p' l' H H' E).
Qed.

Lemma colon_re_none s : re_match colon_re s = None <-> forall p l, ~ is_prefixed s p l.
Proof.
  split.
  - intros E p l H. rewrite (colon_re_prefixed _ _ _ H) in E. discriminate.
  - intros H. destruct (re_match colon_re s) eqn:E; [|reflexivity].
    apply colon_re_some in E as (p & l & E). exfalso; exact (H p l E).
Qed.

(** ** Scopes *)

Lemma inverted_get sc uri :
  uri <> xml_ns ->
  dict_get str_eqb (inverted sc) uri
  = match filter (fun kv => str_eqb (snd kv) uri) (rev sc) with
    | kv :: _ => Some (fst kv)
    | [] => None
    end.
Proof.
  intros Hx. unfold inverted.
  rewrite (dict_get_set_other _ str_eqb_spec) by congruence.
  induction sc as [|[k v] sc IH] using rev_ind; [reflexivity|].
  rewrite fold_left_app, rev_app_distr. cbn [fold_left app rev filter].
  cbn [fst snd]. destruct (str_eqb_spec v uri) as [->|Hn].
  - rewrite (dict_get_set_same _ str_eqb_spec). reflexivity.
  - rewrite (dict_get_set_other _ str_eqb_spec) by congruence. exact IH.
Qed.

(** ** The repositories *)

Definition wf (r : repository) : Prop :=
  NoDup (dict_keys (by_qname r)) /\ forall k e, In (k, e) (by_qname r) -> e_name e = k.

Definition registered (els : list element) : repository := fold_left upsert els empty_repo.

Lemma dict_set_in {V} (d : list (qname * V)) k v k' v' :
  In (k', v') (dict_set qname_eqb d k v) -> (k' = k /\ v' = v) \/ In (k', v') d.
Proof.
  induction d as [|[k0 v0] d IH]; cbn.
  - intros [H|[]]; inversion H; auto.
  - destruct (qname_eqb_spec k0 k) as [->|Hn]; cbn; intros [H|H].
    + inversion H; auto.
    + auto.
    + auto.
    + apply IH in H as [H|H]; auto.
Qed.

Lemma wf_upsert r e : wf r -> wf (upsert r e).
Proof.
  intros [Hn Hk]. split; cbn.
  - apply dict_set_keys_nodup; [apply qname_eqb_spec|exact Hn].
  - intros k e' H. apply dict_set_in in H as [[-> ->] | H]; [reflexivity|auto].
Qed.

Lemma registered_snoc els e : registered (els ++ [e]) = upsert (registered els) e.
Proof. unfold registered. rewrite fold_left_app. reflexivity. Qed.

Lemma wf_registered els : wf (registered els).
Proof.
  induction els as [|e els IH] using rev_ind.
  - split; cbn; [constructor|tauto].
  - rewrite registered_snoc. apply wf_upsert; exact IH.
Qed.

Lemma current_snoc els e x :
  current (els ++ [e]) x <-> x = e \/ (current els x /\ e_name x <> e_name e).
Proof.
  split.
  - intros (pre & post & E & H).
    destruct post as [|y post] using rev_ind.
    + apply app_inj_tail in E as [-> ->]. auto.
    + clear IHpost. rewrite app_comm_cons, app_assoc in E.
      apply app_inj_tail in E as [-> ->]. right. split.
      * exists pre, post. split; [reflexivity|].
        intros z Hz; apply H. apply in_or_app; auto.
      * intros Heq. apply (H y); [apply in_or_app; right; left; reflexivity|].
        symmetry; exact Heq.
  - intros [-> | [(pre & post & -> & H) Hn]].
    + exists els, []. split; [reflexivity|]. intros z [].
    + exists pre, (post ++ [e]). split; [rewrite <- app_assoc; reflexivity|].
      intros z Hz. apply in_app_or in Hz as [Hz|[<-|[]]]; [auto|congruence].
Qed.

Lemma registered_get els q e :
  dict_get qname_eqb (by_qname (registered els)) q = Some e <-> current els e /\ e_name e = q.
Proof.
  revert e; induction els as [|x els IH] using rev_ind; intros e.
  - cbn. split; [discriminate|]. intros [(pre & post & E & _) _].
    destruct pre; discriminate.
  - rewrite registered_snoc. cbn [upsert by_qname].
    rewrite current_snoc.
    destruct (qname_eqb_spec (e_name x) q) as [<-|Hn].
    + rewrite (dict_get_set_same _ qname_eqb_spec). split.
      * intros H; inversion H; auto.
      * intros [[-> | [_ Hne]] Heq]; [reflexivity|congruence].
    + rewrite (dict_get_set_other _ qname_eqb_spec) by exact Hn.
      rewrite IH. split.
      * intros [Hc Hq]. split; [right; split; [exact Hc|congruence]|exact Hq].
      * intros [[-> | [Hc _]] Hq]; [congruence|auto].
Qed.

Lemma get_all_current els e : In e (get_all (registered els)) <-> current els e.
Proof.
  unfold get_all, dict_values. rewrite in_map_iff. split.
  - intros ([k e'] & <- & H). cbn.
    destruct (wf_registered els) as [Hn Hk].
    apply (dict_get_in_nodup _ qname_eqb_spec) in H; [|exact Hn].
    apply registered_get in H as [H _]. exact H.
  - intros H. exists (e_name e, e). split; [reflexivity|].
    apply (dict_get_in _ qname_eqb_spec). apply registered_get; auto.
Qed.

Lemma get_all_nodup els : NoDup (get_all (registered els)).
Proof.
  destruct (wf_registered els) as [Hn Hk]. unfold get_all, dict_values, dict_keys in *.
  assert (E : map fst (by_qname (registered els))
              = map e_name (map snd (by_qname (registered els)))).
  { rewrite map_map. apply map_ext_in. intros [k e] H. cbn. symmetry. auto. }
  rewrite E in Hn. apply NoDup_map_inv in Hn. exact Hn.
Qed.

(** ** Namespaces *)

Lemma pair_eqb_spec a b : reflect (a = b) (pair_eqb a b).
Proof.
  destruct a as [a1 a2], b as [b1 b2]; unfold pair_eqb; cbn.
  destruct (str_eqb_spec a1 b1), (str_eqb_spec a2 b2); cbn; constructor; congruence.
Qed.

Lemma ns_upsert_in n p uri x : In x (ns_upsert n p uri) <-> x = (p, uri) \/ In x n.
Proof.
  unfold ns_upsert. destruct (existsb (pair_eqb (p, uri)) n) eqn:E.
  - apply existsb_exists in E as (y & Hy & E). destruct (pair_eqb_spec (p, uri) y); [|discriminate].
    subst. split; [auto|]. intros [-> | H]; auto.
  - rewrite in_app_iff. cbn. split; intros H.
    + destruct H as [H|[H|[]]]; auto.
    + destruct H as [-> | H]; auto.
Qed.

Lemma ns_upsert_nodup n p uri : NoDup n -> NoDup (ns_upsert n p uri).
Proof.
  intros H. unfold ns_upsert. destruct (existsb (pair_eqb (p, uri)) n) eqn:E; [exact H|].
  apply NoDup_snoc; [exact H|]. intros Hin.
  assert (existsb (pair_eqb (p, uri)) n = true); [|congruence].
  apply existsb_exists. exists (p, uri). split; [exact Hin|].
  destruct (pair_eqb_spec (p, uri) (p, uri)); congruence.
Qed.

Definition add_scope (n : namespaces) (sc : scope) : namespaces :=
  fold_left (fun n kv => match fst kv with
                         | Some p => ns_upsert n p (snd kv)
                         | None => n
                         end) sc n.

Lemma add_scope_spec sc : forall n,
  (NoDup n -> NoDup (add_scope n sc)) /\
  forall p uri, In (p, uri) (add_scope n sc) <-> In (p, uri) n \/ In (Some p, uri) sc.
Proof.
  unfold add_scope. induction sc as [|[k v] sc IH]; intros n; cbn [fold_left].
  - split; [auto|]. intros; cbn; tauto.
  - cbn [fst snd]. destruct k as [q|].
    + destruct (IH (ns_upsert n q v)) as [H1 H2]. split.
      * intros Hn; apply H1, ns_upsert_nodup, Hn.
      * intros p uri. rewrite H2, ns_upsert_in. cbn. split.
        -- intros [[E|H]|H]; [inversion E; auto|auto|auto].
        -- intros [H|[E|H]]; [auto|inversion E; auto|auto].
    + destruct (IH n) as [H1 H2]. split; [exact H1|].
      intros p uri. rewrite H2. cbn. split; [tauto|].
      intros [H|[E|H]]; [auto|discriminate|auto].
Qed.

Lemma create_nsmap_spec scopes :
  NoDup (create_nsmap scopes) /\
  forall p uri, In (p, uri) (create_nsmap scopes)
                <-> (p, uri) = (u "xml", xml_ns) \/ bound scopes p uri.
Proof.
  unfold create_nsmap. induction scopes as [|sc scopes IH] using rev_ind.
  - cbn [fold_left]. split.
    + apply ns_upsert_nodup. constructor.
    + intros p uri. rewrite ns_upsert_in. split.
      * intros [H|[]]; auto.
      * intros [H|(m & [] & _)]; auto.
  - rewrite fold_left_app. cbn [fold_left].
    change (fold_left _ sc ?n) with (add_scope n sc).
    destruct IH as [IH1 IH2].
    destruct (add_scope_spec sc (create_nsmap scopes)) as [H1 H2].
    split; [apply H1, IH1|]. intros p uri.
    unfold create_nsmap in H2. rewrite H2, IH2. unfold bound. split.
    + intros [[H|(m & Hm & H)]|H]; [auto| |].
      * right; exists m; split; [apply in_or_app; auto|exact H].
      * right; exists sc; split; [apply in_or_app; right; left; reflexivity|exact H].
    + intros [H|(m & Hm & H)]; [auto|].
      apply in_app_or in Hm as [Hm|[-> |[]]]; [|auto]. left; right; eauto.
Qed.

Lemma get_uris_spec n p uri : In uri (get_uris n p) <-> In (p, uri) n.
Proof.
  unfold get_uris. rewrite in_map_iff. split.
  - intros ([a b] & <- & H). apply filter_In in H as [H E]. cbn in *.
    apply str_eqb_eq in E; subst; exact H.
  - intros H. exists (p, uri). split; [reflexivity|]. apply filter_In.
    split; [exact H|]. cbn. apply str_eqb_refl.
Qed.

Lemma get_uris_nodup n p : NoDup n -> NoDup (get_uris n p).
Proof.
  intros H. unfold get_uris.
  assert (H' : NoDup (filter (fun x : str * str => str_eqb (fst x) p) n))
    by (apply NoDup_filter; exact H).
  assert (Hf : forall x, In x (filter (fun x : str * str => str_eqb (fst x) p) n) -> fst x = p).
  { intros x Hx. apply filter_In in Hx as [_ E]. apply str_eqb_eq; exact E. }
  induction (filter (fun x : str * str => str_eqb (fst x) p) n) as [|[a b] l IH]; cbn; [constructor|].
  inversion_clear H' as [|? ? Hni Hl]. constructor.
  - rewrite in_map_iff. intros ([a' b'] & Hb & Hin). cbn in Hb; subst b'.
    apply Hni. assert (a = p) as -> by (apply (Hf (a, b)); left; reflexivity).
    assert (a' = p) as -> by (apply (Hf (a', b)); right; exact Hin). exact Hin.
  - apply IH; [exact Hl|]. intros x Hx; apply Hf; right; exact Hx.
Qed.

(** ** Searching *)

Lemma get_fuzzy_any ord n r sp :
  get_fuzzy ord n r sp = get_fuzzy_typed (fun _ => true) ord n r sp.
Proof.
  unfold get_fuzzy, get_fuzzy_typed. destruct (candidates ord n sp) as [us ps].
  assert (Hg : forall q, get_typed_by_qname (fun _ => true) r q = get_by_qname r q).
  { intros q. unfold get_typed_by_qname. destruct (get_by_qname r q); reflexivity. }
  destruct (negb (is_nil us && is_nil ps)).
  - assert (E : filter (has_typed_qname (fun _ => true) r) (cross (sp_local sp) us ps)
                = filter (has_qname r) (cross (sp_local sp) us ps)).
    { apply filter_ext. intros q. unfold has_typed_qname. rewrite Hg.
      unfold get_by_qname, has_qname, dict_mem.
      destruct (dict_get qname_eqb (by_qname r) q); reflexivity. }
    rewrite E. clear E.
    induction (filter (has_qname r) (cross (sp_local sp) us ps)) as [|q l IH]; cbn; [reflexivity|].
    rewrite Hg, IH. reflexivity.
  - f_equal. unfold get_all_typed.
    assert (E : forall l, filter (fun _ : element => true) l = l).
    { induction l as [|a l IH]; cbn; [reflexivity|congruence]. }
    rewrite E. reflexivity.
Qed.

(** Getting what has been tested to be there does not raise. *)
Lemma typed_hits is_t r l :
  exists out, map_res (get_typed_by_qname is_t r) (filter (has_typed_qname is_t r) l) = Ok out /\
    (forall e, In e out <-> exists q, In q l /\ dict_get qname_eqb (by_qname r) q = Some e
                                      /\ is_t e = true) /\
    (wf r -> NoDup l -> NoDup out).
Proof.
  induction l as [|q l (out & E & Hi & Hn)].
  - exists []. cbn. split; [reflexivity|]. split.
    + intros e; split; [tauto|]. intros (q & [] & _).
    + intros; constructor.
  - assert (Hg : get_typed_by_qname is_t r q
                 = match dict_get qname_eqb (by_qname r) q with
                   | Some e => if is_t e then Ok e else Raise ValueError
                   | None => Raise KeyError
                   end).
    { unfold get_typed_by_qname, get_by_qname.
      destruct (dict_get qname_eqb (by_qname r) q); reflexivity. }
    assert (Hskip : (forall e, dict_get qname_eqb (by_qname r) q = Some e -> is_t e = false) ->
      filter (has_typed_qname is_t r) (q :: l) = filter (has_typed_qname is_t r) l ->
      exists out, map_res (get_typed_by_qname is_t r)
                    (filter (has_typed_qname is_t r) (q :: l)) = Ok out /\
        (forall e, In e out <-> exists q', In q' (q :: l)
                   /\ dict_get qname_eqb (by_qname r) q' = Some e /\ is_t e = true) /\
        (wf r -> NoDup (q :: l) -> NoDup out)).
    { intros Hq Ef. exists out. rewrite Ef. split; [exact E|]. split.
      - intros x. rewrite Hi. split; intros (q' & H); exists q'.
        + cbn; tauto.
        + destruct H as ([<- | H1] & H2 & H3); [apply Hq in H2; congruence|auto].
      - intros Hw Hl. inversion_clear Hl; auto. }
    destruct (dict_get qname_eqb (by_qname r) q) as [e|] eqn:Eq; [destruct (is_t e) eqn:Et|].
    + clear Hskip. exists (e :: out).
      assert (Ef : filter (has_typed_qname is_t r) (q :: l)
                   = q :: filter (has_typed_qname is_t r) l).
      { cbn [filter]. unfold has_typed_qname at 1. rewrite Hg. reflexivity. }
      rewrite Ef. split; [|split].
      * cbn [map_res]. rewrite Hg. cbn [bind]. rewrite E. reflexivity.
      * intros x. cbn. rewrite Hi. split.
        -- intros [<- | (q' & H1 & H2)]; [exists q; auto|exists q'; auto].
        -- intros (q' & [<- | H1] & H2 & H3); [left; congruence|right; eauto].
      * intros Hw Hl. inversion_clear Hl as [|? ? Hni Hl']. constructor; [|auto].
        intros Hin. apply Hi in Hin as (q' & H1 & H2 & _).
        destruct Hw as [_ Hk].
        apply (dict_get_in _ qname_eqb_spec) in H2, Eq.
        apply Hk in H2, Eq. congruence.
    + apply Hskip; [intros x Hx; congruence|].
      cbn [filter]. unfold has_typed_qname at 1. rewrite Hg. reflexivity.
    + apply Hskip; [intros x Hx; congruence|].
      cbn [filter]. unfold has_typed_qname at 1. rewrite Hg. reflexivity.
Qed.

Lemma cross_one l us p : cross l us [p] = map (fun uri => QName uri p l) us.
Proof. unfold cross. induction us as [|a us IH]; cbn in *; [reflexivity|]. f_equal; exact IH. Qed.

(** What a search by text finds: each match once. *)
Lemma fuzzy_text is_t ord n els s :
  some_order ord -> NoDup n ->
  (forall e, current els e -> In (q_prefix (e_name e), q_uri (e_name e)) n) ->
  exists out, get_fuzzy_typed is_t ord n (registered els) (search_from_string s) = Ok out /\
    NoDup out /\
    forall e, In e out <-> current els e /\ is_t e = true /\ means s (e_name e).
Proof.
  intros Ho Hn Hk. unfold search_from_string.
  destruct (re_match colon_re s) as [c|] eqn:E.
  - pose proof (colon_re_some _ _ E) as (p & l & Hs).
    rewrite (colon_re_prefixed _ _ _ Hs) in E. inversion E; subst c; clear E.
    unfold get_fuzzy_typed, candidates. cbn [sp_uri sp_prefix sp_local truthy].
    replace (cap [(2, l); (1, p)] 2) with l by reflexivity.
    replace (cap [(2, l); (1, p)] 1) with p by reflexivity.
    pose proof Hs as (_ & Hp & _). destruct p as [|pc p']; [congruence|].
    set (p := pc :: p') in *. cbn [truthy].
    rewrite cross_one.
    destruct (typed_hits is_t (registered els)
                (map (fun uri => QName uri p l) (ord (get_uris n p)))) as (out & Eo & Hi & Hnd).
    exists out. split; [rewrite <- Eo; destruct (is_nil (ord (get_uris n p))); reflexivity|].
    split.
    + apply Hnd; [apply wf_registered|]. apply FinFun.Injective_map_NoDup.
      * intros a b H; congruence.
      * apply (Permutation_NoDup (Ho (get_uris n p))). apply get_uris_nodup; exact Hn.
    + intros e. rewrite Hi. split.
      * intros (q & Hq & Hg & Ht). apply registered_get in Hg as [Hc Hq'].
        split; [exact Hc|]. split; [exact Ht|]. left.
        apply in_map_iff in Hq as (uri & <- & _). rewrite Hq'. exact Hs.
      * intros (Hc & Ht & [Hm | [Hm _]]).
        -- destruct (is_prefixed_unique _ _ _ _ _ Hs Hm) as [Hp1 Hl1].
           exists (e_name e). split; [|split; [apply registered_get; auto|exact Ht]].
           apply in_map_iff. exists (q_uri (e_name e)). split.
           ++ rewrite Hp1, Hl1. destruct (e_name e); reflexivity.
           ++ apply (Permutation_in _ (Ho (get_uris n p))). apply get_uris_spec.
              rewrite Hp1. apply Hk; exact Hc.
        -- exfalso; exact (Hm p l Hs).
  - pose proof (proj1 (colon_re_none s) E) as Hs.
    unfold get_fuzzy_typed, candidates. cbn [sp_uri sp_prefix sp_local truthy is_nil andb negb].
    eexists. split; [reflexivity|]. split.
    + apply NoDup_filter. unfold get_all_typed. apply NoDup_filter, get_all_nodup.
    + intros e. rewrite filter_In. unfold get_all_typed. rewrite filter_In, get_all_current.
      rewrite str_eqb_eq. split.
      * intros [[Hc Ht] Hl]. split; [exact Hc|]. split; [exact Ht|]. right; auto.
      * intros (Hc & Ht & [Hm | [_ Hm]]); [exfalso; exact (Hs _ _ Hm)|auto].
Qed.

Lemma exactly_one_spec {A} (l : list A) (P : A -> Prop) :
  NoDup l -> (forall x, In x l <-> P x) ->
  (forall x, exactly_one l = Ok x <-> P x /\ forall y, P y -> y = x) /\
  (exactly_one l = Raise ValueError \/ exists x, exactly_one l = Ok x).
Proof.
  intros Hn Hi. split.
  - intros x. split.
    + intros H. destruct l as [|a [|b l]]; cbn in H; try discriminate. inversion H; subst a.
      split; [apply Hi; left; reflexivity|]. intros y Hy. apply Hi in Hy as [Hy|[]]; auto.
    + intros [Hx Hu]. destruct l as [|a [|b l]].
      * apply Hi in Hx as [].
      * cbn. f_equal. apply Hu, Hi. left; reflexivity.
      * exfalso. inversion_clear Hn as [|? ? Hni _]. apply Hni. left.
        rewrite (Hu a), (Hu b); [reflexivity| |]; apply Hi; cbn; auto.
  - destruct l as [|a [|b l]]; cbn; eauto.
Qed.
