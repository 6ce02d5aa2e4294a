(** Proofs about opening with what earlier sessions have left in the cache (C110). *)
From Coq Require Import Permutation.
From Verif Require Import Base Regex NetSpec DtsModel DtsSpec DtsRefs DtsProofs DtsLoad CacheSpec.
Local Open Scope nat_scope.

(** ** What is read for a document *)

Section Views.
Context {tree : Type}.

Definition text_of (w : world tree) (s : cache tree) (remote : bool) (v : str) : option str :=
  match dict_get str_eqb (files s) (uri_to_filename v) with
  | Some t => Some t
  | None => if remote then w_remote w v else w_local w (w_path w v)
  end.

(** Fetching a document whose path has the same file name *)
Lemma fetch_text w s remote v : uri_to_filename (w_path w v) = uri_to_filename v \/ remote = true ->
  match text_of w s remote v with
  | Some t => exists s', fetch w s remote v = Ok (t, s') /\ trees s' = trees s /\
      (forall k, dict_get str_eqb (files s') k = if str_eqb k (uri_to_filename v) then Some t else dict_get str_eqb (files s) k)
  | None => fetch w s remote v = Raise OSError
  end.
Proof.
  intros Hp. unfold text_of, fetch, has_file, get_file, dict_mem.
  destruct (dict_get str_eqb (files s) (uri_to_filename v)) as [t|] eqn:E.
  - cbn [or_error bind]. exists s. split; [reflexivity|]. split; [reflexivity|].
    intros k. destruct (str_eqb_spec k (uri_to_filename v)) as [->|_]; [exact E|reflexivity].
  - assert (G : forall t, exists s', Ok (t, add_file s v t) = Ok (t, s') /\ trees s' = trees s /\
      (forall k, dict_get str_eqb (files s') k = if str_eqb k (uri_to_filename v) then Some t else dict_get str_eqb (files s) k)).
    { intros t. exists (add_file s v t). split; [reflexivity|]. split; [reflexivity|]. unfold add_file. cbn [files].
      intros k. destruct (str_eqb_spec k (uri_to_filename v)) as [->|Hk]; [apply (dict_get_set_same _ str_eqb_spec)|].
      apply (dict_get_set_other _ str_eqb_spec). congruence. }
    destruct remote.
    + destruct (w_remote w v) as [t|]; [|reflexivity]. cbn [or_error bind]. unfold add_file. cbn [files].
      rewrite (dict_get_set_same _ str_eqb_spec). cbn [or_error bind]. exact (G t).
    + destruct Hp as [Hp|Hp]; [|discriminate Hp].
      destruct (w_local w (w_path w v)) as [t|]; [|reflexivity]. cbn [or_error bind]. unfold add_file in *. cbn [files]. rewrite Hp.
      rewrite (dict_get_set_same _ str_eqb_spec). cbn [or_error bind]. exact (G t).
Qed.

(** ** Two sessions that read the same *)

Section Two.
Variables w1 w2 : world tree.
Variable r : rules.
Hypothesis Hjoin : w_urljoin w1 = w_urljoin w2.
Hypothesis Hparse : w_parse w1 = w_parse w2.
Hypothesis Horder : w_order w1 = w_order w2.
Hypothesis Ho : some_order (w_order w1).

Lemma same_resolve x v : resolve w1 r x v = resolve w2 r x v.
Proof. unfold resolve. rewrite Hjoin. reflexivity. Qed.

(** The documents that can come up, with whether they are fetched from the network *)
Variable P : str -> bool -> Prop.
Hypothesis Hpath1 : forall v b, P v b -> uri_to_filename (w_path w1 v) = uri_to_filename v \/ b = true.
Hypothesis Hpath2 : forall v b, P v b -> uri_to_filename (w_path w2 v) = uri_to_filename v \/ b = true.

Definition alike (s1 s2 : cache tree) : Prop :=
  trees s1 = trees s2 /\
  (forall v b, P v b -> text_of w1 s1 b v = text_of w2 s2 b v) /\
  (forall v b v' b' text ref, P v b -> P v' b' -> uri_to_filename v = uri_to_filename v' -> text_of w1 s1 b' v' = Some text -> mentions text ref ->
     P (resolve w1 r ref v) (is_http (resolve w1 r ref v) || is_http v)).

Definition alike_res (r1 r2 : res (cache tree)) : Prop :=
  match r1, r2 with
  | Ok s1, Ok s2 => alike s1 s2
  | Raise e1, Raise e2 => e1 = e2
  | _, _ => False
  end.

Lemma text_after w s s' v b t v' : text_of w s b v = Some t ->
  (forall k, dict_get str_eqb (files s') k = if str_eqb k (uri_to_filename v) then Some t else dict_get str_eqb (files s) k) ->
  forall b', text_of w s' b' v' = if str_eqb (uri_to_filename v') (uri_to_filename v) then Some t else text_of w s b' v'.
Proof.
  intros E K b'. unfold text_of at 1. rewrite K. destruct (str_eqb_spec (uri_to_filename v') (uri_to_filename v)); reflexivity.
Qed.

Lemma alike_loop f1 f2 (referencing : str) : 
  (forall x s1 s2, alike s1 s2 -> P (resolve w1 r x referencing) (is_http (resolve w1 r x referencing) || is_http referencing) -> alike_res (f1 x s1) (f2 x s2)) ->
  forall l s1 s2, alike s1 s2 -> (forall x, In x l -> P (resolve w1 r x referencing) (is_http (resolve w1 r x referencing) || is_http referencing)) ->
  alike_res (for_each f1 l s1) (for_each f2 l s2).
Proof.
  intros Hf. induction l as [|x l IH]; intros s1 s2 H Hx; cbn [for_each]; [exact H|].
  pose proof (Hf x s1 s2 H (Hx x (or_introl eq_refl))) as Hr. destruct (f1 x s1) as [a|e], (f2 x s2) as [a'|e']; cbn [bind alike_res] in *; try contradiction; [|exact Hr].
  apply IH; [exact Hr|]. intros y Hy. apply Hx. right. exact Hy.
Qed.

Lemma alike_load fuel : forall x referencing s1 s2, alike s1 s2 ->
  P (resolve w1 r x referencing) (is_http (resolve w1 r x referencing) || is_http referencing) ->
  alike_res (add_etree_recursive w1 r fuel x referencing s1) (add_etree_recursive w2 r fuel x referencing s2).
Proof.
  induction fuel as [|fuel IH]; intros x referencing s1 s2 H Hv; cbn [add_etree_recursive]; [reflexivity|].
  rewrite <- same_resolve. set (v := resolve w1 r x referencing) in *. set (b := is_http v || is_http referencing) in *.
  destruct H as (Ht & Hs & Hc). assert (Eh : has_etree s1 v = has_etree s2 v) by (unfold has_etree; rewrite Ht; reflexivity).
  rewrite <- Eh. destruct (has_etree s1 v); [exact (conj Ht (conj Hs Hc))|].
  destruct (get_parser v) as [p|e]; [|reflexivity]. cbn [bind].
  pose proof (fetch_text w1 s1 b v (Hpath1 v b Hv)) as F1. pose proof (fetch_text w2 s2 b v (Hpath2 v b Hv)) as F2.
  rewrite <- (Hs v b Hv) in F2. destruct (text_of w1 s1 b v) as [t|] eqn:Et; [|rewrite F1, F2; reflexivity].
  destruct F1 as (s1' & -> & T1 & K1), F2 as (s2' & -> & T2 & K2). cbn [bind fst snd]. rewrite <- Hparse.
  destruct (w_parse w1 p t) as [tr|]; [|reflexivity]. cbn [or_error bind].
  assert (G1 : get_file (add_etree s1' v tr) v = Ok t) by (unfold get_file, add_etree; cbn [files]; rewrite K1; destruct (str_eqb_spec (uri_to_filename v) (uri_to_filename v)); [reflexivity|congruence]).
  assert (G2 : get_file (add_etree s2' v tr) v = Ok t) by (unfold get_file, add_etree; cbn [files]; rewrite K2; destruct (str_eqb_spec (uri_to_filename v) (uri_to_filename v)); [reflexivity|congruence]).
  rewrite G1, G2. cbn [bind]. destruct (extract_references t) as [refs|e] eqn:Er; [|reflexivity]. cbn [bind]. rewrite <- Horder.
  assert (A1 := fun v' => text_after w1 s1 (add_etree s1' v tr) v b t v' Et K1).
  assert (A2 := fun v' => text_after w2 s2 (add_etree s2' v tr) v b t v' (eq_trans (eq_sym (Hs v b Hv)) Et) K2).
  apply (alike_loop _ _ v); [intros y a a' Ha Hy; apply IH; assumption| |].
  - split; [unfold add_etree; cbn [trees]; rewrite T1, T2, Ht; reflexivity|]. split.
    + intros v' b' Hv'. rewrite A1, A2. destruct (str_eqb _ _); [reflexivity|exact (Hs v' b' Hv')].
    + intros v1 b1 v' b' text ref H1 H' En. rewrite A1. destruct (str_eqb_spec (uri_to_filename v') (uri_to_filename v)) as [Ev|_].
      * intros [= <-]. exact (Hc v1 b1 v b t ref H1 Hv (eq_trans En Ev) Et).
      * exact (Hc v1 b1 v' b' text ref H1 H' En).
  - intros y Hy. apply (Hc v b v b t y Hv Hv eq_refl Et). eapply extract_sound; [exact Er|].
    eapply Permutation_in; [apply Permutation_sym, Ho|exact Hy].
Qed.

Lemma alike_load_all fuel l s1 s2 : alike s1 s2 ->
  (forall x, In x l -> P (resolve w1 r x (u ".")) (is_http (resolve w1 r x (u ".")))) ->
  alike_res (load_all w1 r fuel l s1) (load_all w2 r fuel l s2).
Proof.
  intros H Hx. unfold load_all. apply (alike_loop _ _ (u ".")); [intros x a a' Ha Hy; apply alike_load; assumption|exact H|].
  intros x Hl. assert (E : is_http (u ".") = false) by (vm_compute; reflexivity). rewrite E, orb_false_r. exact (Hx x Hl).
Qed.
End Two.

(** ** Reading again what has been read *)

Definition extends (f g : list (str * str)) : Prop := forall k t, dict_get str_eqb f k = Some t -> dict_get str_eqb g k = Some t.
Lemma extends_refl f : extends f f. Proof. intros k t H. exact H. Qed.
Lemma extends_trans f g h : extends f g -> extends g h -> extends f h. Proof. intros A B k t H. apply B, A, H. Qed.

Section Again.
Variables w w' : world tree.
Variable r : rules.
Hypothesis Hjoin : w_urljoin w = w_urljoin w'.
Hypothesis Hparse : w_parse w = w_parse w'.
Hypothesis Horder : w_order w = w_order w'.

(** Files are never changed. *)
Lemma fetch_keeps s remote v t s' : fetch w s remote v = Ok (t, s') -> trees s' = trees s /\ 
  (forall c, get_file s' v = Ok c -> extends (files s) (files s') /\ c = t).
Proof.
  unfold fetch, has_file, get_file, dict_mem. destruct (dict_get str_eqb (files s) (uri_to_filename v)) as [t0|] eqn:E.
  - cbn [or_error bind]. intros [= <- <-]. split; [reflexivity|]. intros c. rewrite E. intros [= <-]. split; [apply extends_refl|reflexivity].
  - assert (G : forall x t1, (do! t <- or_error (dict_get str_eqb (files (add_file s x t1)) (uri_to_filename x)); Ok (t, add_file s x t1)) = Ok (t, s') ->
      trees s' = trees s /\ (forall c, or_error (dict_get str_eqb (files s') (uri_to_filename v)) = Ok c -> extends (files s) (files s') /\ c = t)).
    { intros x t1. unfold add_file. cbn [files]. rewrite (dict_get_set_same _ str_eqb_spec). cbn [or_error bind]. intros [= <- <-]. split; [reflexivity|].
      cbn [files]. intros c Hc. destruct (str_eqb_spec (uri_to_filename x) (uri_to_filename v)) as [Ex|Ex].
      - rewrite Ex in *. rewrite (dict_get_set_same _ str_eqb_spec) in Hc. injection Hc as <-. split; [|reflexivity].
        intros k t' Hk. rewrite (dict_get_set_other _ str_eqb_spec); [exact Hk|]. congruence.
      - rewrite (dict_get_set_other _ str_eqb_spec) in Hc by congruence. rewrite E in Hc. discriminate Hc. }
    destruct remote; [destruct (w_remote w v) as [t1|]|destruct (w_local w (w_path w v)) as [t1|]]; cbn [or_error bind]; try discriminate; apply G.
Qed.

Lemma fetch_cached s remote v t : dict_get str_eqb (files s) (uri_to_filename v) = Some t -> fetch w' s remote v = Ok (t, s).
Proof. intros E. unfold fetch, has_file, get_file, dict_mem. rewrite E. reflexivity. Qed.

Definition again (f1 f2 : cache tree -> res (cache tree)) : Prop :=
  forall s s', f1 s = Ok s' -> extends (files s) (files s') /\
    forall f, extends (files s') f -> f2 (Cache f (trees s)) = Ok (Cache f (trees s')).

Lemma again_loop (f1 f2 : str -> cache tree -> res (cache tree)) : (forall x, again (f1 x) (f2 x)) -> forall l, again (for_each f1 l) (for_each f2 l).
Proof.
  intros Hf. induction l as [|x l IH]; intros s s'; cbn [for_each].
  - intros [= <-]. split; [apply extends_refl|]. intros f _. reflexivity.
  - intros H. destruct (f1 x s) as [s1|] eqn:E1; [|discriminate H]. cbn [bind] in H.
    destruct (Hf x s s1 E1) as [X1 A1]. destruct (IH s1 s' H) as [X2 A2]. split; [eapply extends_trans; eassumption|].
    intros f Hx. rewrite (A1 f (extends_trans _ _ _ X2 Hx)). cbn [bind]. exact (A2 f Hx).
Qed.

Lemma again_load fuel : forall x referencing, again (add_etree_recursive w r fuel x referencing) (add_etree_recursive w' r fuel x referencing).
Proof.
  induction fuel as [|fuel IH]; intros x referencing s s'; cbn [add_etree_recursive]; [discriminate|].
  assert (Er : resolve w' r x referencing = resolve w r x referencing) by (unfold resolve; rewrite Hjoin; reflexivity). rewrite Er.
  set (v := resolve w r x referencing). set (b := is_http v || is_http referencing).
  unfold has_etree at 1. intros H. split.
  - destruct (dict_mem str_eqb (trees s) (normalize_uri v)); [injection H as <-; apply extends_refl|].
    destruct (get_parser v) as [p|]; [|discriminate H]. cbn [bind] in H. destruct (fetch w s b v) as [[t s1]|] eqn:Ef; [|discriminate H]. cbn [bind fst snd] in H.
    destruct (w_parse w p t) as [tr|]; [|discriminate H]. cbn [or_error bind] in H.
    destruct (get_file (add_etree s1 v tr) v) as [c|] eqn:Eg; [|discriminate H]. cbn [bind] in H.
    destruct (extract_references c) as [refs|]; [|discriminate H]. cbn [bind] in H.
    destruct (fetch_keeps _ _ _ _ _ Ef) as [_ K]. destruct (K c Eg) as [K1 _].
    apply (again_loop _ _ (fun y => IH y v)) in H as [X _]. cbn [add_etree files] in X. eapply extends_trans; eassumption.
  - intros f Hx. unfold has_etree. cbn [trees].
    destruct (dict_mem str_eqb (trees s) (normalize_uri v)); [injection H as <-; reflexivity|].
    destruct (get_parser v) as [p|]; [|discriminate H]. cbn [bind] in *. destruct (fetch w s b v) as [[t s1]|] eqn:Ef; [|discriminate H]. cbn [bind fst snd] in H.
    destruct (w_parse w p t) as [tr|] eqn:Ep; [|discriminate H]. cbn [or_error bind] in H.
    destruct (get_file (add_etree s1 v tr) v) as [c|] eqn:Eg; [|discriminate H]. cbn [bind] in H.
    destruct (extract_references c) as [refs|] eqn:Ee; [|discriminate H]. cbn [bind] in H.
    destruct (fetch_keeps _ _ _ _ _ Ef) as [Et K]. destruct (K c Eg) as [_ ->].
    destruct (again_loop _ _ (fun y => IH y v) _ _ _ H) as [X A]. cbn [add_etree files trees] in X, A.
    assert (Ec : dict_get str_eqb f (uri_to_filename v) = Some t).
    { apply Hx, X. unfold get_file, add_etree in Eg. cbn [files] in Eg. destruct (dict_get str_eqb (files s1) (uri_to_filename v)) as [c'|]; [injection Eg as <-; reflexivity|discriminate Eg]. }
    rewrite (fetch_cached (Cache f (trees s)) b v t Ec). cbn [bind fst snd]. rewrite <- Hparse, Ep. cbn [or_error bind].
    unfold get_file, add_etree. cbn [files trees]. rewrite Ec. cbn [or_error bind]. rewrite Ee. cbn [bind]. rewrite <- Horder, <- Et. exact (A f Hx).
Qed.

Lemma again_all fuel l : again (load_all w r fuel l) (load_all w' r fuel l).
Proof. unfold load_all. apply again_loop. intros x. apply again_load. Qed.
End Again.
End Views.
