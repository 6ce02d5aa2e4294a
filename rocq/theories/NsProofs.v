(** Lemmas about namespace normalisation (C34). *)
From Verif Require Import Base PyNum NetSpec QNameModel QNameSpec.

(** ** Families of URIs *)

Lemma version_char_spec c :
  version_char c <-> is_digit c || N.eqb c (ch "-") || N.eqb c (ch "_") || N.eqb c (ch ".") = true.
Proof.
  unfold version_char, is_digit. change (u "-_.") with [ch "-"; ch "_"; ch "."].
  destruct (digit_of c) eqn:E; cbn [orb].
  - split; [reflexivity|]. intros _; left; congruence.
  - rewrite !orb_true_iff, !N.eqb_eq. split.
    + intros [H|[H|[H|[H|[]]]]]; auto; congruence.
    + intros [[H|H]|H]; right; cbn; auto.
Qed.

Lemma same_family_iff a b :
  same_family a b <-> url_remove_version a = url_remove_version b.
Proof.
  unfold url_remove_version. split.
  - induction 1 as [|c a b Hc _ IH|c a b Hc _ IH|c a b _ IH]; cbn [filter].
    + reflexivity.
    + apply version_char_spec in Hc. rewrite Hc. exact IH.
    + apply version_char_spec in Hc. rewrite Hc. exact IH.
    + destruct (negb _); [f_equal|]; exact IH.
  - revert b; induction a as [|x a IHa]; intros b E; cbn [filter] in E.
    + induction b as [|y b IHb]; [constructor|]. cbn [filter] in E.
      destruct (is_digit y || N.eqb y (ch "-") || N.eqb y (ch "_") || N.eqb y (ch ".")) eqn:Ey;
        cbn [negb] in E; [|discriminate].
      apply sf_right; [apply version_char_spec; exact Ey|]. apply IHb; exact E.
    + destruct (is_digit x || N.eqb x (ch "-") || N.eqb x (ch "_") || N.eqb x (ch ".")) eqn:Ex;
        cbn [negb] in E.
      * apply sf_left; [apply version_char_spec; exact Ex|]. apply IHa; exact E.
      * induction b as [|y b IHb]; [discriminate|]. cbn [filter] in E.
        destruct (is_digit y || N.eqb y (ch "-") || N.eqb y (ch "_") || N.eqb y (ch ".")) eqn:Ey;
          cbn [negb] in E.
        -- apply sf_right; [apply version_char_spec; exact Ey|]. apply IHb; exact E.
        -- inversion E; subst. apply sf_both. apply IHa; assumption.
Qed.

(** ** Components *)

Definition bindings (maps : list scope) : list (str * str) :=
  flat_map (fun m => flat_map (fun kv => match fst kv with
                                         | Some p => [(p, snd kv)]
                                         | None => []
                                         end) m) maps.

Lemma bindings_bound maps p uri : In (p, uri) (bindings maps) <-> bound maps p uri.
Proof.
  unfold bindings, bound. rewrite in_flat_map. split; intros (m & Hm & H); exists m; split; auto.
  - apply in_flat_map in H as ([[q|] v] & Hk & H); cbn in H; [|tauto].
    destruct H as [H|[]]. inversion H; subst; exact Hk.
  - apply in_flat_map. exists (Some p, uri). split; [exact H|]. left; reflexivity.
Qed.

Lemma components_bindings maps :
  components maps = fold_left (fun cs x => add_binding cs (fst x) (snd x)) (bindings maps) [].
Proof.
  unfold components, bindings. generalize (@nil (str * component)).
  induction maps as [|m maps IH]; intros cs; cbn [fold_left flat_map]; [reflexivity|].
  rewrite fold_left_app, IH. f_equal. clear IH. revert cs.
  induction m as [|[[p|] v] m IH]; intros cs; cbn; [reflexivity| |]; apply IH.
Qed.

Lemma set_add_in x l y : In y (set_add x l) <-> y = x \/ In y l.
Proof.
  unfold set_add. destruct (existsb (str_eqb x) l) eqn:E.
  - apply existsb_exists in E as (z & Hz & E). apply str_eqb_eq in E; subst z.
    split; [auto|]. intros [-> | H]; auto.
  - rewrite in_app_iff. cbn. split; intros H; [destruct H as [H|[H|[]]]; auto|].
    destruct H as [-> | H]; auto.
Qed.

Definition is_comp (B : list (str * str)) (k : str) (c : component) : Prop :=
  fst c <> [] /\ snd c <> [] /\
  (forall uri, In uri (fst c) <-> exists p, In (p, uri) B /\ url_remove_version uri = k) /\
  (forall p, In p (snd c) <-> exists uri, In (p, uri) B /\ url_remove_version uri = k).

Definition comps_of (B : list (str * str)) (cs : list (str * component)) : Prop :=
  NoDup (dict_keys cs) /\
  forall k, match dict_get str_eqb cs k with
            | Some c => is_comp B k c
            | None => forall p uri, In (p, uri) B -> url_remove_version uri <> k
            end.

Lemma comps_add B cs p uri : comps_of B cs -> comps_of (B ++ [(p, uri)]) (add_binding cs p uri).
Proof.
  intros [Hn Hk]. unfold add_binding. set (k0 := url_remove_version uri).
  pose proof (Hk k0) as Hk0.
  assert (Hstep : exists us ps,
    match dict_get str_eqb cs k0 with Some c => c | None => ([], []) end = (us, ps) /\
    (forall x, In x us <-> exists q, In (q, x) B /\ url_remove_version x = k0) /\
    (forall q, In q ps <-> exists x, In (q, x) B /\ url_remove_version x = k0)).
  { destruct (dict_get str_eqb cs k0) as [[us ps]|].
    - exists us, ps. destruct Hk0 as (_ & _ & H1 & H2). auto.
    - exists [], []. split; [reflexivity|]. split; intros x; (split; [intros []|]);
        intros (q & H & E); exact (Hk0 _ _ H E). }
  destruct Hstep as (us & ps & -> & H1 & H2). split.
  - apply dict_set_keys_nodup; [apply str_eqb_spec|exact Hn].
  - intros k. destruct (str_eqb_spec k0 k) as [<- | Hne].
    + rewrite (dict_get_set_same _ str_eqb_spec). unfold is_comp; cbn [fst snd].
      split; [|split; [|split]].
      * intros E. assert (Hin : In uri (set_add uri us)) by (apply set_add_in; auto).
        rewrite E in Hin; exact Hin.
      * intros E. assert (Hin : In p (set_add p ps)) by (apply set_add_in; auto).
        rewrite E in Hin; exact Hin.
      * intros x. rewrite set_add_in, H1. split.
        -- intros [-> | (q & H & E)].
           ++ exists p. split; [apply in_or_app; right; left; reflexivity|reflexivity].
           ++ exists q. split; [apply in_or_app; auto|exact E].
        -- intros (q & H & E). apply in_app_or in H as [H|[H|[]]].
           ++ right; eauto.
           ++ inversion H; auto.
      * intros q. rewrite set_add_in, H2. split.
        -- intros [-> | (x & H & E)].
           ++ exists uri. split; [apply in_or_app; right; left; reflexivity|reflexivity].
           ++ exists x. split; [apply in_or_app; auto|exact E].
        -- intros (x & H & E). apply in_app_or in H as [H|[H|[]]].
           ++ right; eauto.
           ++ inversion H; auto.
    + rewrite (dict_get_set_other _ str_eqb_spec) by exact Hne.
      specialize (Hk k). destruct (dict_get str_eqb cs k) as [c|].
      * destruct Hk as (Ha & Hb & Hc & Hd). split; [exact Ha|]. split; [exact Hb|]. split.
        -- intros x. rewrite Hc. split; intros (q & H & E); exists q; (split; [|exact E]).
           ++ apply in_or_app; auto.
           ++ apply in_app_or in H as [H|[H|[]]]; [exact H|]. inversion H; subst; exfalso; apply Hne; reflexivity.
        -- intros q. rewrite Hd. split; intros (x & H & E); exists x; (split; [|exact E]).
           ++ apply in_or_app; auto.
           ++ apply in_app_or in H as [H|[H|[]]]; [exact H|]. inversion H; subst; exfalso; apply Hne; reflexivity.
      * intros q x H. apply in_app_or in H as [H|[H|[]]]; [eauto|].
        inversion H; subst. exact Hne.
Qed.

Lemma comps_of_components maps : comps_of (bindings maps) (components maps).
Proof.
  rewrite components_bindings. induction (bindings maps) as [|[p v] B IH] using rev_ind.
  - split; [constructor|]. cbn. intros k p uri [].
  - rewrite fold_left_app. cbn [fold_left fst snd]. apply comps_add; exact IH.
Qed.

(** ** One component *)

Lemma max_by_spec {A} (key : A -> Z) l : forall b,
  In (max_by key b l) (b :: l) /\
  forall x, In x (b :: l) -> (key x <= key (max_by key b l))%Z.
Proof.
  induction l as [|y l IH]; intros b; cbn [max_by].
  - split; [left; reflexivity|]. intros x [-> |[]]; lia.
  - destruct (Z.ltb_spec (key b) (key y)) as [H|H].
    + destruct (IH y) as [H1 H2]. split; [right; exact H1|].
      intros x [<- | Hx]; [|apply H2; exact Hx].
      specialize (H2 y (or_introl eq_refl)). lia.
    + destruct (IH b) as [H1 H2]. split.
      * destruct H1 as [H1|H1]; [left; exact H1|right; right; exact H1].
      * intros x [<- | [<- | Hx]]; [apply H2; left; reflexivity| |apply H2; right; exact Hx].
        specialize (H2 b (or_introl eq_refl)). lia.
Qed.

Lemma min_by_spec {A} (key : A -> Z) l : forall b,
  In (min_by key b l) (b :: l) /\
  forall x, In x (b :: l) -> (key (min_by key b l) <= key x)%Z.
Proof.
  induction l as [|y l IH]; intros b; cbn [min_by].
  - split; [left; reflexivity|]. intros x [-> |[]]; lia.
  - destruct (Z.ltb_spec (key y) (key b)) as [H|H].
    + destruct (IH y) as [H1 H2]. split; [right; exact H1|].
      intros x [<- | Hx]; [|apply H2; exact Hx].
      specialize (H2 y (or_introl eq_refl)). lia.
    + destruct (IH b) as [H1 H2]. split.
      * destruct H1 as [H1|H1]; [left; exact H1|right; right; exact H1].
      * intros x [<- | [<- | Hx]]; [apply H2; left; reflexivity| |apply H2; right; exact Hx].
        specialize (H2 b (or_introl eq_refl)). lia.
Qed.

Lemma urls_versions k urls :
  (forall x, In x urls -> url_remove_version x = k) -> are_urls_versions urls = true.
Proof.
  induction urls as [|a [|b t] IH]; intros H; [reflexivity|reflexivity|].
  change (str_eqb (url_remove_version a) (url_remove_version b)
          && are_urls_versions (b :: t) = true).
  rewrite (H a), (H b) by (cbn; auto). rewrite str_eqb_refl.
  apply IH. intros x Hx; apply H; right; exact Hx.
Qed.

Lemma component_ok default ord B k c :
  some_order ord -> is_comp B k c ->
  exists mp mu red,
    component_to_nsmap default (ord (fst c)) (ord (snd c)) = Ok (mp, mu, red) /\
    In mu (fst c) /\
    (forall x, In x (fst c) -> (url_to_value x <= url_to_value mu)%Z) /\
    (default mu = Some mp \/
     (default mu = None /\ In mp (snd c) /\ forall x, In x (snd c) -> length mp <= length x)) /\
    (forall x, In x red <-> In x (snd c) /\ x <> mp).
Proof.
  intros Ho (Hu & Hp & Hfu & Hfp). destruct c as [us ps]; cbn [fst snd] in *.
  pose proof (Ho us) as Pu. pose proof (Ho ps) as Pp.
  destruct (ord us) as [|a us'] eqn:Eu.
  { apply Permutation_sym, Permutation_nil in Pu. congruence. }
  destruct (ord ps) as [|b ps'] eqn:Ep.
  { apply Permutation_sym, Permutation_nil in Pp. congruence. }
  unfold component_to_nsmap.
  rewrite (urls_versions k).
  2:{ intros x Hx. apply (Permutation_in _ (Permutation_sym Pu)) in Hx.
      apply Hfu in Hx as (q & _ & E). exact E. }
  cbn [negb]. destruct (max_by_spec url_to_value us' a) as [M1 M2].
  set (mu := max_by url_to_value a us') in *.
  destruct (min_by_spec (fun s : str => Z.of_nat (length s)) ps' b) as [N1 N2].
  set (mb := min_by (fun s : str => Z.of_nat (length s)) b ps') in *.
  eexists _, mu, _. split; [reflexivity|]. split; [|split; [|split]].
  - apply (Permutation_in _ (Permutation_sym Pu)); exact M1.
  - intros x Hx. apply M2. apply (Permutation_in _ Pu); exact Hx.
  - destruct (default mu) as [d|]; [left; reflexivity|]. right. split; [reflexivity|]. split.
    + apply (Permutation_in _ (Permutation_sym Pp)); exact N1.
    + intros x Hx. apply (Permutation_in _ Pp) in Hx. apply N2 in Hx. unfold mb in Hx. cbn beta in Hx. apply Nat2Z.inj_le. exact Hx.
  - intros x. rewrite filter_In, negb_true_iff, str_eqb_neq. split; intros [H1 H2]; split; auto.
    + apply (Permutation_in _ (Permutation_sym Pp)); exact H1.
    + apply (Permutation_in _ Pp); exact H1.
Qed.

(** ** All components *)

Lemma dict_set_in_str {V} (d : list (str * V)) k v k' v' :
  In (k', v') (dict_set str_eqb d k v) -> (k' = k /\ v' = v) \/ (k' <> k /\ In (k', v') d)
  \/ (k' = k /\ v' = v) \/ In (k', v') d.
Proof.
  induction d as [|[k0 v0] d IH]; cbn.
  - intros [H|[]]; inversion H; auto.
  - destruct (str_eqb_spec k0 k) as [->|Hn]; cbn; intros [H|H].
    + inversion H; auto.
    + auto.
    + inversion H; subst; auto.
    + apply IH in H as [H|[[H1 H2]|[H|H]]]; auto 10.
Qed.

Lemma dict_set_in_cases {V} (d : list (str * V)) k v x :
  NoDup (dict_keys d) ->
  In x (dict_set str_eqb d k v) -> x = (k, v) \/ (fst x <> k /\ In x d).
Proof.
  destruct x as [k' v']. unfold dict_keys. induction d as [|[k0 v0] d IH]; cbn; intros Hn.
  - intros [H|[]]; inversion H; auto.
  - inversion_clear Hn as [|? ? Hni Hn'].
    destruct (str_eqb_spec k0 k) as [->|Hne]; cbn; intros [H|H].
    + inversion H; auto.
    + right. split; [|auto]. intros ->. apply Hni. apply (in_map fst) in H; exact H.
    + inversion H; subst. right; auto.
    + apply IH in H; [|exact Hn']. destruct H as [H|[H1 H2]]; auto.
Qed.

Lemma dict_set_key {V} (d : list (str * V)) k v k' :
  In k' (dict_keys (dict_set str_eqb d k v)) <-> k' = k \/ In k' (dict_keys d).
Proof.
  unfold dict_keys. induction d as [|[k0 v0] d IH]; cbn.
  - split; intros [H|[]]; auto.
  - destruct (str_eqb_spec k0 k) as [->|Hn]; cbn.
    + split; intros [H|H]; auto.
    + rewrite IH. split; intros [H|[H|H]]; auto.
Qed.

Lemma dict_set_value_nodup {V} (f : V -> str) (d : list (str * V)) k v :
  NoDup (map (fun x => f (snd x)) d) -> ~ In (f v) (map (fun x => f (snd x)) d) ->
  NoDup (map (fun x => f (snd x)) (dict_set str_eqb d k v)).
Proof.
  assert (Hin : forall d : list (str * V), forall y,
    In y (map (fun x => f (snd x)) (dict_set str_eqb d k v)) ->
    y = f v \/ In y (map (fun x => f (snd x)) d)).
  { clear d. induction d as [|[k0 v0] d IH]; cbn; intros y.
    - intros [H|[]]; auto.
    - destruct (str_eqb k0 k); cbn; intros [H|H]; auto. apply IH in H as [H|H]; auto. }
  induction d as [|[k0 v0] d IH]; cbn; intros Hn Hv.
  - constructor; [tauto|constructor].
  - inversion_clear Hn as [|? ? Hni Hn']. destruct (str_eqb k0 k); cbn.
    + constructor; [|exact Hn']. intros H; apply Hv; right; exact H.
    + constructor.
      * intros H. apply Hin in H as [H|H]; [apply Hv; left; exact H|contradiction].
      * apply IH; [exact Hn'|]. intros H; apply Hv; right; exact H.
Qed.

Lemma redirects_fold (red : list str) (p' : str) : forall d : list (str * str),
  (forall k, In k (dict_keys (fold_left (fun d r => dict_set str_eqb d r p') red d))
             <-> In k red \/ In k (dict_keys d)) /\
  (forall k v, In (k, v) (fold_left (fun d r => dict_set str_eqb d r p') red d) ->
               v = p' \/ In (k, v) d).
Proof.
  induction red as [|r red IH]; intros d; cbn [fold_left].
  - split; [intros k; cbn; tauto|auto].
  - destruct (IH (dict_set str_eqb d r p')) as [H1 H2]. split.
    + intros k. rewrite H1, dict_set_key. cbn. split; [|intros [[H|H]|H]; auto].
      intros [H|[H|H]]; auto.
    + intros k v H. apply H2 in H as [H|H]; [auto|].
      apply dict_set_in_str in H as [[_ H]|[[_ H]|[[_ H]|H]]]; auto.
Qed.

Definition fam (x : str * str) : str := url_remove_version (snd x).

(** What has been built after the components [done]. *)
Record built (B : list (str * str)) (done : list str) (st : normalized) : Prop := {
  b_keys : NoDup (dict_keys (nm_nsmap st));
  b_fams : NoDup (map fam (nm_nsmap st));
  b_from : forall p uri, In (p, uri) (nm_nsmap st) ->
           In (url_remove_version uri) done /\ (exists q, In (q, uri) B) /\
           forall q x, In (q, x) B -> url_remove_version x = url_remove_version uri ->
                       (url_to_value x <= url_to_value uri)%Z;
  b_red : forall p q, In (p, q) (nm_redirects st) -> In q (dict_keys (nm_nsmap st));
}.

(** A prefix that the normaliser may choose for [uri]. *)
Definition may_choose (default : str -> option str) (B : list (str * str)) (p uri : str) : Prop :=
  (exists q, In (q, uri) B) /\
  (default uri = Some p \/ (default uri = None /\ exists x, In (p, x) B /\
                                 url_remove_version x = url_remove_version uri)).

Lemma normalize_step default ord B done st k c :
  some_order ord -> built B done st -> is_comp B k c -> ~ In k done ->
  exists st' mp mu,
    normalize_component default ord st c = Ok st' /\ built B (k :: done) st' /\
    url_remove_version mu = k /\ may_choose default B mp mu /\
    (forall q, In q (snd c) -> In q (dict_keys (nm_nsmap st')) \/ In q (dict_keys (nm_redirects st')))
    /\ (forall q, In q (dict_keys (nm_nsmap st)) -> In q (dict_keys (nm_nsmap st')))
    /\ (forall q, In q (dict_keys (nm_redirects st)) -> In q (dict_keys (nm_redirects st')))
    /\ (dict_mem str_eqb (nm_nsmap st) mp = false ->
        nm_nsmap st' = nm_nsmap st ++ [(mp, mu)] /\ nm_renames st' = nm_renames st).
Proof.
  intros Ho [Bk Bf Bfrom Bred] Hc Hk.
  destruct (component_ok default ord B k c Ho Hc) as (mp & mu & red & E & Hmu & Hmax & Hmp & Hred).
  pose proof Hc as (_ & _ & Hfu & Hfp).
  pose proof Hmu as Hmu'. apply Hfu in Hmu' as (q0 & Hq0 & Hfam).
  unfold normalize_component. rewrite E. cbn [bind].
  set (hit := dict_mem str_eqb (nm_nsmap st) mp).
  set (p' := if hit then generate_alternative_prefix mp else mp).
  set (ren := if hit then dict_set str_eqb (nm_renames st) mu (generate_alternative_prefix mp)
              else nm_renames st).
  exists (Norm (dict_set str_eqb (nm_nsmap st) p' mu)
               (fold_left (fun d r => dict_set str_eqb d r p') red (nm_redirects st)) ren), mp, mu.
  split; [unfold p', ren, hit; destruct (dict_mem str_eqb (nm_nsmap st) mp); reflexivity|].
  destruct (redirects_fold red p' (nm_redirects st)) as [R1 R2].
  assert (Hold : forall q, In q (dict_keys (nm_nsmap st)) ->
                           In q (dict_keys (dict_set str_eqb (nm_nsmap st) p' mu))).
  { intros q Hq. apply dict_set_key. auto. }
  split; [|split; [exact Hfam|split; [|split; [|split; [exact Hold|split]]]]].
  - constructor; cbn [nm_nsmap nm_redirects].
    + apply dict_set_keys_nodup; [apply str_eqb_spec|exact Bk].
    + apply (dict_set_value_nodup url_remove_version); [exact Bf|].
      rewrite Hfam. intros H. apply in_map_iff in H as ([a b] & Hab & H). cbn [snd] in Hab.
      apply Bfrom in H as (H & _). rewrite Hab in H. contradiction.
    + intros p uri H. apply dict_set_in_cases in H as [H|[_ H]]; [| |exact Bk].
      * inversion H; subst p uri. split; [left; symmetry; exact Hfam|]. split; [eauto|].
        intros q x Hx Hfx. apply Hmax, Hfu. exists q. split; [exact Hx|congruence].
      * apply Bfrom in H as (H1 & H2 & H3). split; [right; exact H1|auto].
    + intros p q H. apply R2 in H as [-> | H].
      * apply dict_set_key; auto.
      * apply Hold. eapply Bred; exact H.
  - split; [eauto|]. destruct Hmp as [Hd | (Hd & Hin & _)]; [left; exact Hd|]. right.
    split; [exact Hd|]. apply Hfp in Hin as (x & Hx & Hfx). exists x. split; [exact Hx|congruence].
  - intros q Hq. cbn [nm_nsmap nm_redirects].
    destruct (str_eqb_spec q mp) as [->|Hne].
    + left. apply dict_set_key. unfold p'. destruct hit eqn:Eh; [|auto].
      right. unfold hit, dict_mem in Eh.
      destruct (dict_get str_eqb (nm_nsmap st) mp) eqn:Eg; [|discriminate].
      apply (dict_get_in _ str_eqb_spec) in Eg. apply (in_map fst) in Eg. exact Eg.
    + right. apply R1. left. apply Hred; auto.
  - intros q Hq. cbn [nm_redirects]. apply R1; auto.
  - intros Hh. cbn [nm_nsmap nm_renames]. unfold ren, p'. fold hit in Hh. rewrite Hh.
    split; [|reflexivity]. apply (dict_set_keys_new _ str_eqb_spec).
    apply (dict_get_none _ str_eqb_spec). unfold hit, dict_mem in Hh.
    destruct (dict_get str_eqb (nm_nsmap st) mp); [discriminate|reflexivity].
Qed.

Lemma normalize_all_built default ord B cs : forall done st,
  some_order ord -> built B done st ->
  NoDup (map fst cs) -> (forall k, In k (map fst cs) -> ~ In k done) ->
  (forall k c, In (k, c) cs -> is_comp B k c) ->
  exists st', normalize_all default ord st (map snd cs) = Ok st' /\
    built B (rev (map fst cs) ++ done) st' /\
    (forall q k c, In (k, c) cs -> In q (snd c) ->
       In q (dict_keys (nm_nsmap st')) \/ In q (dict_keys (nm_redirects st'))) /\
    (forall q, In q (dict_keys (nm_nsmap st)) -> In q (dict_keys (nm_nsmap st'))) /\
    (forall q, In q (dict_keys (nm_redirects st)) -> In q (dict_keys (nm_redirects st'))).
Proof.
  induction cs as [|[k c] cs IH]; intros done st Ho Hb Hn Hd Hc; cbn [map normalize_all].
  - exists st. split; [reflexivity|]. split; [exact Hb|]. split; [|auto].
    intros q k c [].
  - cbn [map fst] in *. inversion_clear Hn as [|? ? Hni Hn'].
    destruct (normalize_step default ord B done st k c Ho Hb) as
      (st1 & mp & mu & E & Hb1 & _ & _ & Hq1 & Hq2 & Hq3 & _).
    { apply Hc; left; reflexivity. }
    { apply Hd; left; reflexivity. }
    cbn [snd]. rewrite E. cbn [bind].
    destruct (IH (k :: done) st1 Ho Hb1 Hn') as (st' & E' & Hb' & H1 & H2 & H3).
    { intros k' Hk' [<- | Hin]; [contradiction|]. apply (Hd k'); [right; exact Hk'|exact Hin]. }
    { intros k' c' H; apply Hc; right; exact H. }
    exists st'. split; [exact E'|]. split; [cbn [rev]; rewrite <- app_assoc; exact Hb'|].
    split; [|split; intros q Hq; auto].
    intros q k' c' [Heq|H] Hq.
    + inversion Heq; subst. destruct (Hq1 q Hq); [left; auto|right; auto].
    + eapply H1; eauto.
Qed.

(** If no prefix may be chosen for two families, nothing is renamed or overwritten. *)
Lemma normalize_all_full default ord B cs : forall done st,
  some_order ord -> built B done st ->
  NoDup (map fst cs) -> (forall k, In k (map fst cs) -> ~ In k done) ->
  (forall k c, In (k, c) cs -> is_comp B k c) ->
  (forall p u1 u2, may_choose default B p u1 -> may_choose default B p u2 ->
                   url_remove_version u1 = url_remove_version u2) ->
  (forall k, In k done -> exists p uri, In (p, uri) (nm_nsmap st) /\ url_remove_version uri = k) ->
  (forall p uri, In (p, uri) (nm_nsmap st) -> may_choose default B p uri) ->
  nm_renames st = [] ->
  exists st', normalize_all default ord st (map snd cs) = Ok st' /\
    (forall k, In k (map fst cs) \/ In k done ->
       exists p uri, In (p, uri) (nm_nsmap st') /\ url_remove_version uri = k) /\
    (forall p uri, In (p, uri) (nm_nsmap st') -> may_choose default B p uri) /\
    nm_renames st' = [].
Proof.
  induction cs as [|[k c] cs IH]; intros done st Ho Hb Hn Hd Hc Hu Hall Hch Hren;
    cbn [map normalize_all].
  - exists st. split; [reflexivity|]. split; [|auto]. intros k [[]|H]; auto.
  - cbn [map fst] in *. inversion_clear Hn as [|? ? Hni Hn'].
    destruct (normalize_step default ord B done st k c Ho Hb) as
      (st1 & mp & mu & E & Hb1 & Hfam & Hmc & _ & _ & _ & Hnew).
    { apply Hc; left; reflexivity. }
    { apply Hd; left; reflexivity. }
    destruct Hnew as [Hns Hrn].
    { unfold dict_mem. destruct (dict_get str_eqb (nm_nsmap st) mp) as [u'|] eqn:Eg; [|reflexivity].
      exfalso. apply (dict_get_in _ str_eqb_spec) in Eg.
      pose proof (Hu _ _ _ Hmc (Hch _ _ Eg)) as Hf.
      destruct Hb as [_ _ Bfrom _]. apply Bfrom in Eg as (Hdone & _).
      apply (Hd k); [left; reflexivity|]. rewrite <- Hfam, Hf. exact Hdone. }
    cbn [snd]. rewrite E. cbn [bind].
    destruct (IH (k :: done) st1 Ho Hb1 Hn') as (st' & E' & H1 & H2 & H3).
    { intros k' Hk' [<- | Hin]; [contradiction|]. apply (Hd k'); [right; exact Hk'|exact Hin]. }
    { intros k' c' H; apply Hc; right; exact H. }
    { exact Hu. }
    { intros k' [<- | Hk'].
      - exists mp, mu. split; [rewrite Hns; apply in_or_app; right; left; reflexivity|exact Hfam].
      - destruct (Hall k' Hk') as (p & uri & H & Hf). exists p, uri. split; [|exact Hf].
        rewrite Hns; apply in_or_app; auto. }
    { intros p uri H. rewrite Hns in H. apply in_app_or in H as [H|[H|[]]]; [auto|].
      inversion H; subst; exact Hmc. }
    { congruence. }
    exists st'. split; [exact E'|]. split; [|auto].
    intros k' [[<- | H]|H]; apply H1; auto; right; cbn; auto.
Qed.

Lemma built_empty B : built B [] (Norm [] [] []).
Proof. constructor; cbn; try constructor; intros; contradiction. Qed.

Lemma components_facts maps :
  NoDup (map fst (components maps)) /\
  (forall k c, In (k, c) (components maps) -> is_comp (bindings maps) k c) /\
  (forall p uri, In (p, uri) (bindings maps) ->
     exists c, In (url_remove_version uri, c) (components maps) /\ In p (snd c)).
Proof.
  destruct (comps_of_components maps) as [Hn Hk]. split; [exact Hn|]. split.
  - intros k c H. apply (dict_get_in_nodup _ str_eqb_spec) in H; [|exact Hn].
    specialize (Hk k). rewrite H in Hk. exact Hk.
  - intros p uri H. specialize (Hk (url_remove_version uri)).
    destruct (dict_get str_eqb (components maps) (url_remove_version uri)) as [c|] eqn:E.
    + exists c. split; [apply (dict_get_in _ str_eqb_spec); exact E|].
      destruct Hk as (_ & _ & _ & Hp). apply Hp. eauto.
    + exfalso; exact (Hk _ _ H eq_refl).
Qed.
