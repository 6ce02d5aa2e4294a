(** Lemmas about contexts, rows and the fact repository. *)
From Verif Require Import Base Regex PyNum QNameModel ErrModel CtxModel CtxSpec.

(** ** Order of strings *)

Lemma str_leb_refl a : str_leb a a = true.
Proof. induction a as [|x a IH]; cbn; [reflexivity|]. rewrite N.eqb_refl, IH. apply orb_true_r. Qed.

Lemma str_leb_total a b : str_leb a b = true \/ str_leb b a = true.
Proof.
  revert b; induction a as [|x a IH]; intros [|y b]; cbn; auto.
  destruct (N.ltb_spec x y); [left; reflexivity|].
  destruct (N.ltb_spec y x); [right; reflexivity|].
  assert (x = y) by lia; subst. rewrite N.eqb_refl. cbn. apply IH.
Qed.

Lemma str_leb_trans a b c : str_leb a b = true -> str_leb b c = true -> str_leb a c = true.
Proof.
  revert b c; induction a as [|x a IH]; intros [|y b] [|z c]; cbn; try congruence.
  rewrite !orb_true_iff, !andb_true_iff, !N.ltb_lt, !N.eqb_eq.
  intros [H|[H1 H2]] [H'|[H1' H2']]; try (left; lia).
  right. split; [congruence|]. eapply IH; eauto.
Qed.

Lemma str_leb_lex a b : str_leb a b = true -> a <> b -> lex_lt a b.
Proof.
  revert b; induction a as [|x a IH]; intros [|y b]; cbn; try congruence.
  - intros _ _. constructor.
  - rewrite orb_true_iff, andb_true_iff, N.ltb_lt, N.eqb_eq.
    intros [H|[-> H]] Hn; [apply lex_head; exact H|]. apply lex_tail. apply IH; congruence.
Qed.

Lemma existsb_str a l : existsb (str_eqb a) l = true <-> In a l.
Proof.
  rewrite existsb_exists. split.
  - intros (x & Hx & E). apply str_eqb_eq in E. subst. exact Hx.
  - intros H. exists a. split; [exact H|apply str_eqb_refl].
Qed.

(** ** Contexts *)

Definition ctx_ok (c : context) : Prop :=
  NoDup (c_aspects c) /\ StronglySorted (fun a b => str_leb a b = true) (c_aspects c) /\
  NoDup (map fst (c_chars c)) /\ (forall a, In a (c_aspects c) <-> In a (map fst (c_chars c))).

Lemma find_dict_get {V} (d : list (str * V)) a :
  option_map snd (find (fun kv => str_eqb (fst kv) a) d) = dict_get str_eqb d a.
Proof.
  induction d as [|[k v] d IH]; cbn; [reflexivity|]. destruct (str_eqb k a); [reflexivity|exact IH].
Qed.

Lemma get_char_get c a : get_characteristic c a = dict_get str_eqb (c_chars c) a.
Proof. apply find_dict_get. Qed.

Lemma add_ok c x : ctx_ok c -> ctx_ok (add_characteristic c x).
Proof.
  intros (H1 & H2 & H3 & H4). unfold add_characteristic.
  destruct (existsb (str_eqb (aspect_of x)) (c_aspects c)) eqn:E; [repeat split; assumption || apply H4|].
  assert (Hn : ~ In (aspect_of x) (c_aspects c)) by (rewrite <- existsb_str; congruence).
  assert (Hn' : ~ In (aspect_of x) (map fst (c_chars c))) by (rewrite <- H4; exact Hn).
  rewrite (dict_set_keys_new _ str_eqb_spec) by exact Hn'.
  unfold ctx_ok; cbn [c_aspects c_chars].
  pose proof (stable_sort_perm str_leb (c_aspects c ++ [aspect_of x])) as Hp.
  repeat split.
  - eapply Permutation_NoDup; [exact Hp|]. apply NoDup_snoc; assumption.
  - apply stable_sort_sorted; [apply str_leb_total|apply str_leb_trans].
  - rewrite map_app. apply NoDup_snoc; assumption.
  - intros H. apply (Permutation_in _ (Permutation_sym Hp)) in H.
    rewrite map_app. apply in_app_iff in H as [H|H]; apply in_or_app; [left; apply H4, H|right; exact H].
  - intros H. apply (Permutation_in _ Hp). rewrite map_app in H.
    apply in_app_iff in H as [H|H]; apply in_or_app; [left; apply H4, H|right; exact H].
Qed.

Lemma new_ok i : ctx_ok (new_context i).
Proof. repeat split; cbn; try constructor; tauto. Qed.

Lemma fold_ok xs c : ctx_ok c -> ctx_ok (fold_left add_characteristic xs c).
Proof. revert c; induction xs as [|x xs IH]; intros c H; [exact H|]. cbn. apply IH, add_ok, H. Qed.

Lemma add_id c x : c_id (add_characteristic c x) = c_id c.
Proof. unfold add_characteristic. destruct (existsb _ _); reflexivity. Qed.

Lemma fold_id xs c : c_id (fold_left add_characteristic xs c) = c_id c.
Proof. revert c; induction xs as [|x xs IH]; intros c; [reflexivity|]. cbn. rewrite IH. apply add_id. Qed.

(** The characteristic of an aspect after an addition. *)
Lemma add_get c x a : ctx_ok c ->
  get_characteristic (add_characteristic c x) a =
  match get_characteristic c a with
  | Some y => Some y
  | None => if str_eqb (aspect_of x) a then Some x else None
  end.
Proof.
  intros (H1 & H2 & H3 & H4). rewrite !get_char_get. unfold add_characteristic.
  destruct (existsb (str_eqb (aspect_of x)) (c_aspects c)) eqn:E.
  - apply existsb_str, H4 in E.
    destruct (dict_get str_eqb (c_chars c) a) eqn:G; [reflexivity|].
    apply (dict_get_none _ str_eqb_spec) in G.
    destruct (str_eqb_spec (aspect_of x) a) as [<- | ]; [contradiction|reflexivity].
  - assert (Hn' : ~ In (aspect_of x) (map fst (c_chars c)))
      by (rewrite <- H4, <- existsb_str; congruence).
    cbn [c_chars]. destruct (str_eqb_spec (aspect_of x) a) as [<- | Hne].
    + rewrite (dict_get_set_same _ str_eqb_spec).
      apply (dict_get_none _ str_eqb_spec) in Hn'. rewrite Hn'. reflexivity.
    + rewrite (dict_get_set_other _ str_eqb_spec) by congruence.
      destruct (dict_get str_eqb (c_chars c) a); reflexivity.
Qed.

Lemma fold_get xs : forall c a, ctx_ok c ->
  get_characteristic (fold_left add_characteristic xs c) a =
  match get_characteristic c a with
  | Some y => Some y
  | None => find (fun x => str_eqb (aspect_of x) a) xs
  end.
Proof.
  induction xs as [|x xs IH]; intros c a H; cbn [fold_left find].
  - destruct (get_characteristic c a); reflexivity.
  - rewrite IH by (apply add_ok, H). rewrite add_get by exact H.
    destruct (get_characteristic c a); [reflexivity|].
    destruct (str_eqb (aspect_of x) a); reflexivity.
Qed.

Lemma find_first_with {A} (f : A -> bool) (P : A -> Prop) xs x :
  (forall y, f y = true <-> P y) -> (find f xs = Some x <-> first_with P xs x).
Proof.
  intros Hf. split.
  - induction xs as [|y xs IH]; cbn; [discriminate|].
    destruct (f y) eqn:E.
    + intros [= <-]. exists [], xs. split; [reflexivity|]. split; [apply Hf, E|]. intros z [].
    + intros H. destruct (IH H) as (pre & post & -> & Hx & Hpre).
      exists (y :: pre), post. split; [reflexivity|]. split; [exact Hx|].
      intros z [<-|Hz]; [rewrite <- Hf; congruence|apply Hpre, Hz].
  - intros (pre & post & -> & Hx & Hpre). induction pre as [|y pre IH]; cbn.
    + apply Hf in Hx. rewrite Hx. reflexivity.
    + destruct (f y) eqn:E; [exfalso; apply (Hpre y); [left; reflexivity|apply Hf, E]|].
      apply IH. intros z Hz; apply Hpre; right; exact Hz.
Qed.

Lemma ctx_aspect_get c a : ctx_ok c -> (In a (c_aspects c) <-> get_characteristic c a <> None).
Proof.
  intros (H1 & H2 & H3 & H4). rewrite get_char_get.
  rewrite (dict_get_none _ str_eqb_spec). rewrite H4. unfold dict_keys.
  split; [intros H K; exact (K H)|].
  intros H. destruct (in_dec str_eq_dec a (map fst (c_chars c))) as [i|n]; [exact i|contradiction].
Qed.

(** ** Rows *)

(** Building a dict from a list of names: each name keeps the value of its last occurrence. *)
Lemma fold_set_keys (key value : str -> str) l : forall d,
  NoDup (map fst d ++ map key l) ->
  fold_left (fun d a => dict_set str_eqb d (key a) (value a)) l d =
  d ++ map (fun a => (key a, value a)) l.
Proof.
  induction l as [|a l IH]; intros d Hn; cbn [fold_left map].
  - rewrite app_nil_r; reflexivity.
  - cbn [map] in Hn.
    assert (Hd : ~ In (key a) (map fst d)).
    { apply NoDup_remove_2 in Hn. intros H; apply Hn, in_or_app; left; exact H. }
    rewrite (dict_set_keys_new _ str_eqb_spec) by exact Hd.
    rewrite IH.
    + rewrite <- app_assoc. reflexivity.
    + rewrite map_app. cbn. rewrite <- app_assoc. exact Hn.
Qed.

Lemma row_is c : NoDup (c_aspects c) ->
  convert_to_df_row c = map (fun a => (a, get_characteristic_as_str c a)) (c_aspects c).
Proof.
  intros H. unfold convert_to_df_row.
  rewrite (fold_set_keys (fun a => a) (get_characteristic_as_str c)); [reflexivity|].
  cbn. rewrite map_id. exact H.
Qed.

Lemma dict_set_get_any (d : list (str * str)) k v x :
  dict_get str_eqb (dict_set str_eqb d k v) x =
  if str_eqb k x then Some v else dict_get str_eqb d x.
Proof.
  destruct (str_eqb_spec k x) as [-> | H].
  - apply (dict_get_set_same _ str_eqb_spec).
  - apply (dict_get_set_other _ str_eqb_spec). exact H.
Qed.

Lemma dict_get_map (f : str -> str) l a :
  dict_get str_eqb (map (fun a => (a, f a)) l) a = if existsb (str_eqb a) l then Some (f a) else None.
Proof.
  induction l as [|x l IH]; cbn; [reflexivity|].
  rewrite (str_eqb_sym a x). destruct (str_eqb_spec x a) as [-> | ]; [reflexivity|exact IH].
Qed.

(** ** The fact repository *)

Definition facts_after (fs : list fact) : fact_repo := fold_left facts_upsert fs empty_facts.

Lemma facts_after_snoc fs f : facts_after (fs ++ [f]) = facts_upsert (facts_after fs) f.
Proof. unfold facts_after. rewrite fold_left_app. reflexivity. Qed.

Lemma facts_by_id fs i f :
  dict_get str_eqb (fr_by_id (facts_after fs)) i = Some f <->
  last_with (fun f => f_id f = Some i) fs f.
Proof.
  induction fs as [|g fs IH] using rev_ind.
  - cbn. split; [discriminate|]. intros (pre & post & H & _). destruct pre; discriminate.
  - rewrite facts_after_snoc. unfold facts_upsert.
    assert (Hkeep : f_id g <> Some i -> (last_with (fun f => f_id f = Some i) (fs ++ [g]) f <->
                    last_with (fun f => f_id f = Some i) fs f)).
    { intros Hg. split.
      - intros (pre & post & E & Hf & Hpost).
        destruct post as [|p post _] using rev_ind.
        + apply app_inj_tail in E as [_ ->]. contradiction.
        + rewrite app_comm_cons, app_assoc in E. apply app_inj_tail in E as [-> ->].
          exists pre, post. split; [reflexivity|]. split; [exact Hf|].
          intros y Hy; apply Hpost, in_or_app; left; exact Hy.
      - intros (pre & post & -> & Hf & Hpost). exists pre, (post ++ [g]).
        split; [rewrite app_comm_cons, app_assoc; reflexivity|]. split; [exact Hf|].
        intros y Hy. apply in_app_iff in Hy as [Hy|[<-|[]]]; [apply Hpost, Hy|exact Hg]. }
    destruct (f_id g) as [j|] eqn:Ej; cbn [fr_by_id].
    + destruct (str_eqb_spec j i) as [-> | Hne].
      * rewrite (dict_get_set_same _ str_eqb_spec). split.
        -- intros [= <-]. exists fs, []. split; [reflexivity|]. split; [exact Ej|]. intros y [].
        -- intros (pre & post & E & Hf & Hpost).
           destruct post as [|p post _] using rev_ind.
           ++ apply app_inj_tail in E as [_ ->]. reflexivity.
           ++ rewrite app_comm_cons, app_assoc in E. apply app_inj_tail in E as [_ ->].
              exfalso. apply (Hpost p); [apply in_or_app; right; left; reflexivity|exact Ej].
      * rewrite (dict_get_set_other _ str_eqb_spec) by exact Hne.
        rewrite IH. symmetry. apply Hkeep. congruence.
    + rewrite IH. symmetry. apply Hkeep. congruence.
Qed.

Lemma facts_without fs : fr_without_id (facts_after fs) =
  filter (fun f => match f_id f with None => true | _ => false end) fs.
Proof.
  induction fs as [|g fs IH] using rev_ind; [reflexivity|].
  rewrite facts_after_snoc, filter_app. cbn. unfold facts_upsert.
  destruct (f_id g); cbn; rewrite IH; [symmetry; apply app_nil_r|reflexivity].
Qed.

Lemma facts_keys_nodup fs : NoDup (map fst (fr_by_id (facts_after fs))).
Proof.
  induction fs as [|g fs IH] using rev_ind; [constructor|].
  rewrite facts_after_snoc. unfold facts_upsert. destruct (f_id g); cbn; [|exact IH].
  apply (dict_set_keys_nodup _ str_eqb_spec). exact IH.
Qed.

Lemma facts_keys_id fs i f : In (i, f) (fr_by_id (facts_after fs)) -> f_id f = Some i.
Proof.
  intros H. apply (dict_get_in_nodup _ str_eqb_spec _ _ _ (facts_keys_nodup fs)) in H.
  apply facts_by_id in H as (pre & post & _ & H & _). exact H.
Qed.

Lemma facts_distinct fs :
  NoDup (map f_id fs) -> (forall f, In f fs -> f_id f <> None) ->
  facts_get_all (facts_after fs) = fs.
Proof.
  induction fs as [|g fs IH] using rev_ind; intros Hn Hi; [reflexivity|].
  rewrite facts_after_snoc. unfold facts_upsert.
  rewrite map_app in Hn. cbn in Hn.
  assert (Hg : f_id g <> None) by (apply Hi, in_or_app; right; left; reflexivity).
  destruct (f_id g) as [i|] eqn:Ei; [|congruence].
  pose proof (NoDup_remove_1 _ _ _ Hn) as Hn1. rewrite app_nil_r in Hn1.
  apply NoDup_remove_2 in Hn. rewrite app_nil_r in Hn.
  assert (Hk : ~ In i (map fst (fr_by_id (facts_after fs)))).
  { intros H. apply in_map_iff in H as ([k f] & <- & H). cbn in *.
    pose proof (facts_keys_id _ _ _ H) as Hf.
    apply Hn. rewrite in_map_iff. exists f. split; [exact Hf|].
    apply (dict_get_in_nodup _ str_eqb_spec _ _ _ (facts_keys_nodup fs)) in H.
    apply facts_by_id in H as (pre & post & -> & _). apply in_or_app; right; left; reflexivity. }
  unfold facts_get_all, dict_values. cbn [fr_by_id].
  rewrite (dict_set_keys_new _ str_eqb_spec) by exact Hk.
  rewrite map_app. cbn. f_equal.
  apply IH; [exact Hn1|]. intros f Hf; apply Hi, in_or_app; left; exact Hf.
Qed.
