(** Proofs about loading documents (C35). *)
From Coq Require Import Permutation.
From Verif Require Import Base Regex NetSpec DtsModel DtsSpec DtsRefs DtsProofs.
Local Open Scope nat_scope.

(** ** What loading is about *)

Section Defs.
Context {tree : Type} (w : world tree) (r : rules).

(** The text of a document. *)
Definition document (v : str) : option str := if is_http v then w_remote w v else w_local w v.

(** Document [v] refers to document [x]. *)
Definition refers (v x : str) : Prop :=
  exists text ref, document v = Some text /\ mentions text ref /\ x = resolve w r ref v.

(** Document [v] exists, has a known extension, parses to [t] and has no malformed reference. *)
Definition loads_as (v : str) (t : tree) : Prop :=
  exists p text, get_parser v = Ok p /\ document v = Some text /\ w_parse w p text = Some t /\ ~ bad_reference text.

(** The documents of [U] refer only to each other, and the caches can tell them apart. *)
Record separate (U : list str) : Prop := Separate {
  sep_closed : forall v x, In v U -> refers v x -> In x U;
  sep_files : forall v x, In v U -> In x U -> uri_to_filename v = uri_to_filename x -> v = x;
  sep_trees : forall v x, In v U -> In x U -> normalize_uri v = normalize_uri x -> v = x;
  sep_paths : forall v, In v U -> is_http v = false -> w_path w v = v;
  sep_remote : forall v x, In v U -> refers v x -> is_http v = true -> is_http x = true;
  sep_tame : forall v text, In v U -> document v = Some text -> tame text }.

(** A text that loading may come across. *)
Definition obtainable (text : str) : Prop := exists v, w_remote w v = Some text \/ w_local w v = Some text.

(** [U] contains every URI that loading a document of [U] may come across, whatever text is
    found for it. *)
Definition closed_for_all_texts (U : list str) : Prop :=
  forall v text ref, In v U -> obtainable text -> mentions text ref -> In (resolve w r ref v) U.
End Defs.

Section Load.
Context {tree : Type} (w : world tree) (r : rules) (U : list str).
Hypothesis Ho : some_order (w_order w).

Notation recurse := (add_etree_recursive w r).

Lemma order_in l x : In x (w_order w l) <-> In x l.
Proof. split; apply Permutation_in; [apply Permutation_sym|]; apply Ho. Qed.

(** ** Exactness *)

Section Separate.
Hypothesis Hsep : separate w r U.

Definition inv (s : cache tree) (V : list str) : Prop :=
  dict_keys (trees s) = map normalize_uri V /\ NoDup V /\ incl V U /\
  (forall v, In v V -> exists t, loads_as w v t /\ dict_get str_eqb (trees s) (normalize_uri v) = Some t) /\
  (forall v, In v V -> dict_get str_eqb (files s) (uri_to_filename v) = document w v) /\
  (forall k, dict_mem str_eqb (files s) k = true -> exists v, In v V /\ k = uri_to_filename v).

Lemma inv_length s V : inv s V -> length V <= length U.
Proof. intros (_ & H1 & H2 & _). apply NoDup_incl_length; auto. Qed.

Lemma inv_has s V v : inv s V -> In v U -> has_etree s v = true <-> In v V.
Proof.
  intros (Hk & _ & Hi & Ht & _) Hv. unfold has_etree, dict_mem. split.
  - destruct (dict_get str_eqb (trees s) (normalize_uri v)) as [t|] eqn:E; [|discriminate]. intros _.
    apply (dict_get_in _ str_eqb_spec) in E. assert (K : In (normalize_uri v) (dict_keys (trees s))).
    { unfold dict_keys. apply in_map_iff. exists (normalize_uri v, t); auto. }
    rewrite Hk in K. apply in_map_iff in K as (x & E2 & Hx).
    apply (sep_trees _ _ _ Hsep) in E2; auto. subst; auto.
  - intros H. destruct (Ht v H) as (t & _ & ->). reflexivity.
Qed.

Lemma refers_iff v text rs : In v U -> document w v = Some text -> extract_references text = Ok rs ->
  forall x, refers w r v x <-> exists ref, In ref rs /\ x = resolve w r ref v.
Proof.
  intros Hv Hd He x. split.
  - intros (text' & ref & Hd' & Hm & ->). assert (text' = text) by congruence. subst.
    exists ref. split; [|reflexivity]. eapply extract_complete; eauto. eapply sep_tame; eauto.
  - intros (ref & Hr & ->). exists text, ref. split; [auto|split; [|reflexivity]]. eapply extract_sound; eauto.
Qed.

Definition reach := reachable (refers w r).

Lemma reach_trans roots a b : reach roots a -> reach [a] b -> reach roots b.
Proof.
  intros Ha Hb. induction Hb as [v [<-|[]]|v x _ IH Hs]; [auto|]. eapply reach_step; eauto.
Qed.

Lemma reach_incl roots roots' a : incl roots roots' -> reach roots a -> reach roots' a.
Proof.
  intros Hi Ha. induction Ha as [v Hv|v x _ IH Hs]; [apply reach_root; auto|eapply reach_step; eauto].
Qed.

Definition result_ok (V roots : list str) (res : res (cache tree)) : Prop :=
  match res with
  | Ok s' => exists N, inv s' (V ++ N) /\ incl roots (V ++ N) /\
      forall n, In n N -> reach roots n /\ forall m, refers w r n m -> In m (V ++ N)
  | Raise e => e <> OutOfFuel /\ exists b, reach roots b /\ forall t, ~ loads_as w b t
  end.

Lemma loop_ok (f : str -> cache tree -> res (cache tree)) referencing fuel :
  (forall x s V, inv s V -> In (resolve w r x referencing) U ->
     (is_http referencing = true -> is_http (resolve w r x referencing) = true) ->
     length U < fuel + length V -> result_ok V [resolve w r x referencing] (f x s)) ->
  forall l s V, inv s V -> length U < fuel + length V ->
  (forall x, In x l -> In (resolve w r x referencing) U /\
     (is_http referencing = true -> is_http (resolve w r x referencing) = true)) ->
  result_ok V (map (fun x => resolve w r x referencing) l) (for_each f l s).
Proof.
  intros Hf. induction l as [|x l IH]; intros s V Hi Hl Hx; cbn [for_each map].
  - exists []. rewrite app_nil_r. split; [auto|]. split; [intros ? []|]. intros ? [].
  - destruct (Hx x (or_introl eq_refl)) as [Hu Hr].
    pose proof (Hf x s V Hi Hu Hr Hl) as H1. destruct (f x s) as [s1|e]; cbn [bind result_ok] in *.
    + destruct H1 as (N1 & Hi1 & Hr1 & Hn1).
      assert (Hl1 : length U < fuel + length (V ++ N1)) by (rewrite app_length; lia).
      pose proof (IH s1 (V ++ N1) Hi1 Hl1 (fun y Hy => Hx y (or_intror Hy))) as H2.
      destruct (for_each f l s1) as [s2|e]; cbn [result_ok] in *.
      * destruct H2 as (N2 & Hi2 & Hr2 & Hn2). exists (N1 ++ N2). rewrite app_assoc.
        split; [auto|]. split.
        -- intros y [<-|Hy]; [|auto]. apply in_or_app; left. apply Hr1. cbn; auto.
        -- intros n Hn. apply in_app_or in Hn as [Hn|Hn].
           ++ destruct (Hn1 n Hn) as [A B]. split.
              ** eapply reach_incl; [|exact A]. intros y [<-|[]]. cbn; auto.
              ** intros m Hm. apply in_or_app; left. auto.
           ++ destruct (Hn2 n Hn) as [A B]. split; [|auto].
              eapply reach_incl; [|exact A]. intros y Hy. cbn; auto.
      * destruct H2 as (He & b & Hb & Hbad). split; [auto|]. exists b. split; [|auto].
        eapply reach_incl; [|exact Hb]. intros y Hy. cbn; auto.
    + destruct H1 as (He & b & Hb & Hbad). split; [auto|]. exists b. split; [|auto].
      eapply reach_incl; [|exact Hb]. intros y [<-|[]]. cbn; auto.
Qed.

Lemma fetch_ok s V v remote : inv s V -> In v U -> ~ In v V -> remote = is_http v ->
  match document w v with
  | Some text => fetch w s remote v = Ok (text, add_file s v text)
  | None => fetch w s remote v = Raise OSError
  end.
Proof.
  intros (_ & _ & HiU & _ & _ & Hf) Hv Hn ->. unfold fetch, document.
  assert (NF : has_file s v = false).
  { destruct (has_file s v) eqn:E; [|reflexivity]. apply Hf in E as (x & Hx & E).
    apply (sep_files _ _ _ Hsep) in E; auto. subst; contradiction. }
  rewrite NF.
  assert (G : forall text, get_file (add_file s v text) v = Ok text).
  { intros text. unfold get_file, add_file. cbn [files]. rewrite (dict_get_set_same _ str_eqb_spec). reflexivity. }
  destruct (is_http v) eqn:E.
  - destruct (w_remote w v) as [text|]; [|reflexivity]. cbn [or_error bind]. rewrite G. reflexivity.
  - rewrite (sep_paths _ _ _ Hsep v Hv E). destruct (w_local w v) as [text|]; [|reflexivity].
    cbn [or_error bind]. rewrite G. reflexivity.
Qed.

Lemma inv_add s V v p text t : inv s V -> In v U -> ~ In v V -> get_parser v = Ok p ->
  document w v = Some text -> w_parse w p text = Some t -> ~ bad_reference text ->
  inv (add_etree (add_file s v text) v t) (V ++ [v]).
Proof.
  intros (Hk & Hnd & HiU & Ht & Hc & Hf) Hv Hn Hp Hd Hw Hb.
  assert (NK : ~ In (normalize_uri v) (dict_keys (trees s))).
  { rewrite Hk. intros F. apply in_map_iff in F as (x & E & Hx). apply (sep_trees _ _ _ Hsep) in E; auto.
    subst; contradiction. }
  unfold inv, add_etree, add_file; cbn [trees files].
  split; [|split; [|split; [|split; [|split]]]].
  - rewrite (dict_set_keys_new _ str_eqb_spec) by exact NK.
    unfold dict_keys in *. rewrite !map_app, Hk. reflexivity.
  - apply NoDup_snoc; auto.
  - intros x Hx. apply in_app_or in Hx as [Hx|[<-|[]]]; auto.
  - intros x Hx. apply in_app_or in Hx as [Hx|[<-|[]]].
    + destruct (Ht x Hx) as (t' & A & B). exists t'. split; [auto|].
      rewrite (dict_get_set_other _ str_eqb_spec); auto.
      intros E. apply (sep_trees _ _ _ Hsep) in E; auto. subst; contradiction.
    + exists t. split; [exists p, text; auto|]. apply (dict_get_set_same _ str_eqb_spec).
  - intros x Hx. apply in_app_or in Hx as [Hx|[<-|[]]].
    + rewrite (dict_get_set_other _ str_eqb_spec); auto.
      intros E. apply (sep_files _ _ _ Hsep) in E; auto. subst; contradiction.
    + rewrite (dict_get_set_same _ str_eqb_spec). auto.
  - intros k Hk2. destruct (list_eq_dec N.eq_dec k (uri_to_filename v)) as [->|Hne].
    + exists v. split; [apply in_or_app; right; cbn; auto|reflexivity].
    + unfold dict_mem in Hk2. rewrite (dict_get_set_other _ str_eqb_spec) in Hk2 by congruence.
      destruct (Hf k Hk2) as (x & Hx & E). exists x. split; [apply in_or_app; auto|auto].
Qed.

Lemma load_ok fuel : forall x referencing s V, inv s V -> In (resolve w r x referencing) U ->
  (is_http referencing = true -> is_http (resolve w r x referencing) = true) ->
  length U < fuel + length V -> result_ok V [resolve w r x referencing] (recurse fuel x referencing s).
Proof.
  induction fuel as [|fuel IH]; intros x referencing s V Hi Hu Hr Hl.
  - pose proof (inv_length _ _ Hi). cbn in Hl. lia.
  - cbn [add_etree_recursive]. set (v := resolve w r x referencing) in *.
    destruct (has_etree s v) eqn:Eh.
    { apply (inv_has s V v Hi Hu) in Eh. exists []. rewrite app_nil_r. split; [auto|].
      split; [intros y [<-|[]]; auto|intros ? []]. }
    assert (Hn : ~ In v V) by (intros F; apply (inv_has s V v Hi Hu) in F; congruence).
    assert (Hbad : forall e, e <> OutOfFuel -> (forall t, ~ loads_as w v t) ->
      result_ok V [v] (Raise e)).
    { intros e He Hb. split; [auto|]. exists v. split; [apply reach_root; cbn; auto|auto]. }
    destruct (get_parser v) as [p|e] eqn:Ep; cbn [bind].
    2:{ apply Hbad.
        - unfold get_parser in Ep. repeat destruct (ends_with _ _); congruence.
        - intros t (p & text & F & _). congruence. }
    assert (Hrem : is_http v || is_http referencing = is_http v).
    { destruct (is_http v) eqn:E; [reflexivity|]. cbn [orb].
      destruct (is_http referencing); [symmetry|reflexivity]. apply Hr; reflexivity. }
    pose proof (fetch_ok s V v (is_http v || is_http referencing) Hi Hu Hn Hrem) as Hfetch.
    destruct (document w v) as [text|] eqn:Ed.
    2:{ rewrite Hfetch. cbn [bind]. apply Hbad; [discriminate|]. intros t (p' & text & _ & F & _). congruence. }
    rewrite Hfetch. cbn [bind fst snd].
    destruct (w_parse w p text) as [t|] eqn:Et; cbn [or_error bind].
    2:{ apply Hbad; [discriminate|]. intros t (p' & text' & F1 & F2 & F3 & _). congruence. }
    assert (G : get_file (add_etree (add_file s v text) v t) v = Ok text).
    { unfold get_file, add_etree, add_file. cbn [files]. rewrite (dict_get_set_same _ str_eqb_spec). reflexivity. }
    rewrite G. cbn [bind].
    destruct (extract_references text) as [refs|e] eqn:Er; cbn [bind].
    2:{ destruct (extract_raise _ _ Er) as [He Hb]. apply Hbad.
        - destruct He; congruence.
        - intros t' (p' & text' & F1 & F2 & F3 & F4). apply F4. congruence. }
    assert (Hnb : ~ bad_reference text).
    { intros B. eapply extract_bad; eauto. eapply sep_tame; eauto. }
    pose proof (inv_add s V v p text t Hi Hu Hn Ep Ed Et Hnb) as Hi1.
    pose proof (refers_iff v text refs Hu Ed Er) as Href.
    assert (Hl1 : length U < fuel + length (V ++ [v])) by (rewrite app_length; cbn; lia).
    assert (Hx1 : forall y, In y (w_order w refs) -> In (resolve w r y v) U /\
      (is_http v = true -> is_http (resolve w r y v) = true)).
    { intros y Hy. rewrite order_in in Hy. assert (R : refers w r v (resolve w r y v)) by (apply Href; exists y; auto).
      split; [eapply sep_closed; eauto|]. intros Hh. eapply sep_remote; eauto. }
    pose proof (loop_ok (fun y => recurse fuel y v) v fuel (fun y s0 V0 => IH y v s0 V0)
      (w_order w refs) _ _ Hi1 Hl1 Hx1) as H1.
    destruct (for_each _ _ _) as [s'|e]; cbn [result_ok] in *.
    + destruct H1 as (N1 & Hi2 & Hr2 & Hn2). exists (v :: N1).
      replace (V ++ v :: N1) with ((V ++ [v]) ++ N1) by (rewrite <- app_assoc; reflexivity).
      split; [auto|]. split.
      * intros y [<-|[]]. apply in_or_app; left. apply in_or_app; right; cbn; auto.
      * intros n [<-|Hnn].
        -- split; [apply reach_root; cbn; auto|]. intros m Hm. apply Href in Hm as (y & Hy & ->).
           apply Hr2. apply in_map_iff. exists y. split; [reflexivity|apply order_in; auto].
        -- destruct (Hn2 n Hnn) as [A B]. split; [|auto].
           clear - A Href Hu Ho. induction A as [y Hy|y z _ IHA Hs].
           ++ apply in_map_iff in Hy as (q & <- & Hq). rewrite order_in in Hq.
              eapply reach_step; [apply reach_root; cbn; auto|]. apply Href. exists q; auto.
           ++ eapply reach_step; eauto.
    + destruct H1 as (He & b & Hb & Hbd). split; [auto|]. exists b. split; [|auto].
      clear - Hb Href Hu Ho. induction Hb as [y Hy|y z _ IHA Hs].
      * apply in_map_iff in Hy as (q & <- & Hq). rewrite order_in in Hq.
        eapply reach_step; [apply reach_root; cbn; auto|]. apply Href. exists q; auto.
      * eapply reach_step; eauto.
Qed.

Lemma inv_empty : inv empty_cache [].
Proof.
  unfold inv, empty_cache. cbn [trees files].
  split; [reflexivity|]. split; [constructor|]. split; [intros ? []|]. split; [intros ? []|]. split; [intros ? []|].
  intros k H. discriminate.
Qed.

Lemma load_all_ok fuel entrypoints : length U < fuel ->
  (forall x, In x entrypoints -> In (resolve w r x (u ".")) U) ->
  result_ok [] (map (fun x => resolve w r x (u ".")) entrypoints) (load_all w r fuel entrypoints empty_cache).
Proof.
  intros Hl Hx. unfold load_all. apply (loop_ok _ (u ".") fuel).
  - intros x s V. apply load_ok.
  - apply inv_empty.
  - cbn. lia.
  - intros x Hi. split; [auto|]. intros F. vm_compute in F. discriminate.
Qed.
End Separate.

(** ** Termination *)

Section Terminates.
Hypothesis Hc : closed_for_all_texts w r U.

Definition seen (s : cache tree) : Prop :=
  NoDup (dict_keys (trees s)) /\ incl (dict_keys (trees s)) (map normalize_uri U) /\
  forall k text, dict_get str_eqb (files s) k = Some text -> obtainable w text.

Lemma seen_length s : seen s -> length (trees s) <= length U.
Proof.
  intros (H1 & H2 & _). rewrite <- (map_length normalize_uri U), <- (map_length fst (trees s)).
  apply NoDup_incl_length; auto.
Qed.

Definition grows (s : cache tree) (x : res (cache tree)) : Prop :=
  match x with
  | Ok s' => seen s' /\ length (trees s) <= length (trees s')
  | Raise e => e <> OutOfFuel
  end.

Lemma fetch_seen s remote v : seen s -> match fetch w s remote v with
  | Ok (text, s') => seen s' /\ trees s' = trees s
  | Raise e => e <> OutOfFuel end.
Proof.
  intros (H1 & H2 & H3).
  assert (Hadd : forall k text, obtainable w text -> seen (add_file s k text) /\ trees (add_file s k text) = trees s).
  { intros k text Ht. split; [|reflexivity]. split; [exact H1|split; [exact H2|]].
    intros k' t'. unfold add_file; cbn [files].
    destruct (list_eq_dec N.eq_dec (uri_to_filename k) k') as [<-|Hn].
    - rewrite (dict_get_set_same _ str_eqb_spec). intros [= <-]. auto.
    - rewrite (dict_get_set_other _ str_eqb_spec) by auto. apply H3. }
  unfold fetch. destruct (has_file s v).
  - unfold get_file. destruct (dict_get _ _ _); cbn [or_error bind]; [|discriminate].
    split; [split; auto|reflexivity].
  - destruct remote.
    + destruct (w_remote w v) as [text|] eqn:E; cbn [or_error bind]; [|discriminate].
      unfold get_file at 1. destruct (dict_get _ _ _); cbn [or_error bind]; [|discriminate].
      apply Hadd. exists v; auto.
    + destruct (w_local w (w_path w v)) as [text|] eqn:E; cbn [or_error bind]; [|discriminate].
      unfold get_file at 1. destruct (dict_get _ _ _); cbn [or_error bind]; [|discriminate].
      apply Hadd. exists (w_path w v); auto.
Qed.

Lemma loop_grows (f : str -> cache tree -> res (cache tree)) referencing fuel :
  (forall x s, seen s -> In (resolve w r x referencing) U -> length U < fuel + length (trees s) -> grows s (f x s)) ->
  forall l s, seen s -> length U < fuel + length (trees s) ->
  (forall x, In x l -> In (resolve w r x referencing) U) -> grows s (for_each f l s).
Proof.
  intros Hf. induction l as [|x l IH]; intros s Hs Hl Hx; cbn [for_each].
  - split; auto.
  - pose proof (Hf x s Hs (Hx x (or_introl eq_refl)) Hl) as H1.
    destruct (f x s) as [s1|e]; cbn [bind]; [|exact H1]. destruct H1 as [Hs1 L1].
    assert (Hl1 : length U < fuel + length (trees s1)) by lia.
    pose proof (IH s1 Hs1 Hl1 (fun y Hy => Hx y (or_intror Hy))) as H2.
    destruct (for_each f l s1) as [s2|e]; [|exact H2]. destruct H2. split; [auto|lia].
Qed.

Lemma load_grows fuel : forall x referencing s, seen s -> In (resolve w r x referencing) U ->
  length U < fuel + length (trees s) -> grows s (recurse fuel x referencing s).
Proof.
  induction fuel as [|fuel IH]; intros x referencing s Hs Hu Hl.
  - pose proof (seen_length _ Hs). cbn in Hl. lia.
  - cbn [add_etree_recursive]. set (v := resolve w r x referencing) in *.
    destruct (has_etree s v) eqn:Eh; [split; auto|].
    destruct (get_parser v) as [p|e] eqn:Ep; cbn [bind].
    2:{ cbn. unfold get_parser in Ep. repeat destruct (ends_with _ _); congruence. }
    pose proof (fetch_seen s (is_http v || is_http referencing) v Hs) as Hf.
    destruct (fetch w s _ v) as [[text s1]|e]; cbn [bind fst snd]; [|exact Hf].
    destruct Hf as [Hs1 Et1].
    destruct (w_parse w p text) as [t|]; cbn [or_error bind]; [|discriminate].
    assert (NK : ~ In (normalize_uri v) (dict_keys (trees s1))).
    { apply (dict_get_none _ str_eqb_spec). rewrite Et1. unfold has_etree, dict_mem in Eh.
      destruct (dict_get _ _ _); [discriminate|reflexivity]. }
    assert (Hs2 : seen (add_etree s1 v t) /\ length (trees (add_etree s1 v t)) = S (length (trees s))).
    { unfold seen, add_etree; cbn [trees files]. rewrite (dict_set_keys_new _ str_eqb_spec) by exact NK.
      destruct Hs1 as (A & B & C). unfold dict_keys in *. rewrite map_app. cbn [map fst].
      split; [split; [apply NoDup_snoc; auto|split; [|exact C]]|rewrite app_length, Et1; cbn; lia].
      intros k Hk. apply in_app_or in Hk as [Hk|[<-|[]]]; [auto|]. apply in_map; auto. }
    destruct Hs2 as [Hs2 L2].
    destruct (get_file (add_etree s1 v t) v) as [text2|e] eqn:Eg; cbn [bind].
    2:{ unfold get_file in Eg. destruct (dict_get _ _ _); cbn in *; congruence. }
    assert (Ob : obtainable w text2).
    { unfold get_file in Eg. destruct (dict_get _ _ _) as [t2|] eqn:Ek; cbn in Eg; [|discriminate].
      injection Eg as ->. destruct Hs2 as (_ & _ & C). eapply C; eauto. }
    destruct (extract_references text2) as [refs|e] eqn:Er; cbn [bind].
    2:{ destruct (extract_raise _ _ Er) as [[->| ->] _]; discriminate. }
    assert (Hl2 : length U < fuel + length (trees (add_etree s1 v t))) by lia.
    assert (Hx : forall y, In y (w_order w refs) -> In (resolve w r y v) U).
    { intros y Hy. rewrite order_in in Hy. eapply Hc; eauto. eapply extract_sound; eauto. }
    pose proof (loop_grows (fun y => recurse fuel y v) v fuel (fun y s0 => IH y v s0)
      (w_order w refs) _ Hs2 Hl2 Hx) as H1.
    destruct (for_each _ _ _) as [s'|e]; [|exact H1]. destruct H1. split; [auto|lia].
Qed.

Lemma load_all_grows fuel entrypoints : length U < fuel ->
  (forall x, In x entrypoints -> In (resolve w r x (u ".")) U) ->
  load_all w r fuel entrypoints empty_cache <> Raise OutOfFuel.
Proof.
  intros Hl Hx. unfold load_all.
  assert (H : grows empty_cache (for_each (fun x => recurse fuel x (u ".")) entrypoints empty_cache)).
  { apply (loop_grows _ (u ".") fuel).
    - intros x s. apply load_grows.
    - split; [constructor|split; [intros ? []|]]. intros k text F. discriminate.
    - cbn. lia.
    - exact Hx. }
  destruct (for_each _ _ _); [discriminate|]. cbn in H. congruence.
Qed.
End Terminates.
End Load.
