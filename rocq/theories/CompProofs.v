(** Proofs about components and reported concepts. *)
From Verif Require Import Base QNameModel QNameProofs ErrBase ErrTable ErrModel ErrProps CtxModel DtsModel
  ConceptModel ConceptProofs CompModel CompSpec.
From Coq Require Import PeanoNat Lia Permutation.

(** ** First elements *)

Lemma first_such_head {A} (P : A -> Prop) (p : A -> bool) l : (forall a, p a = true <-> P a) ->
  first_such P l (hd_error (filter p l)).
Proof.
  intros H. assert (Hn : forall a, p a = false -> ~ P a) by (intros a E Ha; apply H in Ha; congruence).
  induction l as [|a l IH]; cbn; [constructor|]. destruct (p a) eqn:E; cbn.
  - exists [], l. repeat split; auto. apply H, E.
  - destruct (hd_error (filter p l)) as [b|]; cbn in *.
    + destruct IH as (l1 & l2 & -> & Hb & Hf). exists (a :: l1), l2. repeat split; auto.
    + constructor; auto.
Qed.

Lemma first_such_unique {A} (P : A -> Prop) l r r' : first_such P l r -> first_such P l r' -> r = r'.
Proof.
  revert r r'. induction l as [|a l IH]; intros r r' H H'.
  - destruct r as [x|]; [destruct H as (l1 & l2 & E & _); destruct l1; discriminate E|].
    destruct r' as [x|]; [destruct H' as (l1 & l2 & E & _); destruct l1; discriminate E|reflexivity].
  - assert (Hc : forall r, first_such P (a :: l) r ->
              (r = Some a /\ P a) \/ (~ P a /\ first_such P l r)).
    { intros [x|] Hx; cbn in Hx.
      - destruct Hx as ([|b l1] & l2 & E & Hp & Hf); injection E as -> ->; [auto|].
        right. inversion Hf; subst. split; [assumption|]. exists l1, l2. auto.
      - inversion Hx; subst. auto. }
    destruct (Hc _ H) as [[-> Ha]|[Ha Hr]], (Hc _ H') as [[-> Ha']|[Ha' Hr']]; try contradiction; auto.
Qed.

Lemma twice_filter {A} (P : A -> Prop) (p : A -> bool) l : (forall a, p a = true <-> P a) ->
  (Nat.ltb 1 (length (filter p l)) = true <-> twice P l).
Proof.
  intros H. rewrite Nat.ltb_lt. split.
  - induction l as [|a l IH]; cbn; [lia|]. destruct (p a) eqn:E; cbn; intros Hl.
    + assert (Hx : exists b, In b (filter p l)) by (destruct (filter p l) as [|b r]; [cbn in Hl; lia|eexists; left; reflexivity]).
      destruct Hx as [b Hb]. apply filter_In in Hb. destruct Hb as [Hb Pb]. apply in_split in Hb.
      destruct Hb as (l2 & l3 & ->). exists [], a, l2, b, l3. repeat split; apply H; assumption.
    + destruct (IH Hl) as (l1 & x & l2 & y & l3 & -> & Hx & Hy).
      exists (a :: l1), x, l2, y, l3. auto.
  - intros (l1 & a & l2 & b & l3 & -> & Ha & Hb). apply H in Ha, Hb.
    rewrite filter_app. cbn. rewrite Ha. rewrite filter_app. cbn. rewrite Hb.
    rewrite app_length. cbn. rewrite app_length. cbn. lia.
Qed.

(** ** The network repository *)

Lemma nclass_eqb_spec (a b : nclass) : reflect (a = b) (nclass_eqb a b).
Proof.
  destruct a, b; cbn; try (constructor; congruence).
  destruct (str_eqb_spec name name0); constructor; congruence.
Qed.

Lemma nset_in (r : nrepo) c l c' l' : In (c', l') (dict_set nclass_eqb r c l) -> (c' = c /\ l' = l) \/ In (c', l') r.
Proof.
  induction r as [|[k v] r IH]; cbn; [intros [[= <- <-]|[]]; auto|].
  destruct (nclass_eqb_spec k c) as [->|N]; cbn.
  - intros [[= <- <-]|H]; auto.
  - intros [H|H]; [auto|]. destruct (IH H); auto.
Qed.

Definition class_list (r : nrepo) (c : nclass) : list network :=
  match dict_get nclass_eqb r c with Some l => l | None => [] end.

Lemma class_list_set r c l c' : class_list (dict_set nclass_eqb r c l) c' =
  if nclass_eqb c c' then l else class_list r c'.
Proof.
  unfold class_list. destruct (nclass_eqb_spec c c') as [<-|N].
  - rewrite (dict_get_set_same _ nclass_eqb_spec). reflexivity.
  - rewrite (dict_get_set_other _ nclass_eqb_spec) by congruence. reflexivity.
Qed.

(** Everything under a key has the class of the key, keys are distinct. *)
Definition nrepo_ok (r : nrepo) : Prop :=
  NoDup (dict_keys r) /\ forall c l n, In (c, l) r -> In n l -> n_class n = c.

Lemma nstep_ok r o : nrepo_ok r -> nrepo_ok (nstep r o).
Proof.
  assert (Hset : forall r c l, nrepo_ok r -> (forall n, In n l -> n_class n = c) -> nrepo_ok (dict_set nclass_eqb r c l)).
  { intros r0 c l [H1 H2] Hl. split; [apply (dict_set_keys_nodup _ nclass_eqb_spec), H1|].
    intros c' l' n Hin Hn. apply nset_in in Hin.
    destruct Hin as [[-> ->]|Hin]; eauto. }
  assert (Hget : forall r c, nrepo_ok r -> nrepo_ok (snd (get_by_type r c)) /\ (forall n, In n (fst (get_by_type r c)) -> n_class n = c)).
  { intros r0 c H. unfold get_by_type. destruct (dict_get nclass_eqb r0 c) as [l|] eqn:E; cbn.
    - split; [exact H|]. intros n Hn. apply (dict_get_in _ nclass_eqb_spec) in E. exact (proj2 H _ _ _ E Hn).
    - split; [apply Hset; [exact H|intros n []]|intros n []]. }
  intros H. destruct o as [n|c]; cbn; [|apply Hget, H].
  unfold upsert_network. destruct (Hget r (n_class n) H) as [Hr Hl].
  destruct (get_by_type r (n_class n)) as [l r']. cbn in *. apply Hset; [exact Hr|].
  intros m Hm. apply in_app_or in Hm. destruct Hm as [Hm|[<-|[]]]; auto.
Qed.

Lemma nstep_list r o c : class_list (nstep r o) c =
  class_list r c ++ filter (is_class c) (stored [o]).
Proof.
  assert (Hget : forall r c c', class_list (snd (get_by_type r c)) c' = class_list r c' /\ fst (get_by_type r c) = class_list r c).
  { intros r0 c0 c'. unfold get_by_type, class_list at 3. destruct (dict_get nclass_eqb r0 c0) as [l|] eqn:E; cbn; [auto|].
    rewrite class_list_set. destruct (nclass_eqb_spec c0 c') as [<-|N]; split; auto.
    unfold class_list. rewrite E. reflexivity. }
  destruct o as [n|c0]; cbn.
  - unfold upsert_network. destruct (Hget r (n_class n) c) as [H1 H2].
    destruct (get_by_type r (n_class n)) as [l r']. cbn in *. rewrite class_list_set. unfold is_class. subst l.
    destruct (nclass_eqb_spec (n_class n) c) as [<-|N]; [reflexivity|]. rewrite H1, app_nil_r. reflexivity.
  - rewrite app_nil_r. apply Hget.
Qed.

Lemma networks_after_ok ops : nrepo_ok (networks_after ops).
Proof.
  unfold networks_after. assert (H : nrepo_ok []) by (split; [constructor|intros c l n []]).
  revert H. generalize (@nil (nclass * list network)). induction ops as [|o ops IH]; intros r H; [exact H|].
  cbn. apply IH, nstep_ok, H.
Qed.

Lemma networks_after_list ops c : class_list (networks_after ops) c = filter (is_class c) (stored ops).
Proof.
  unfold networks_after. change (filter (is_class c) (stored ops)) with ([] ++ filter (is_class c) (stored ops)).
  change [] with (class_list [] c) at 2. generalize (@nil (nclass * list network)).
  induction ops as [|o ops IH]; intros r; cbn [fold_left]; [cbn; rewrite app_nil_r; reflexivity|].
  rewrite IH, nstep_list, <- app_assoc, <- filter_app. f_equal. unfold stored. cbn. rewrite app_nil_r. reflexivity.
Qed.

Lemma filter_filter {A} (p q : A -> bool) l : filter p (filter q l) = filter (fun a => q a && p a) l.
Proof.
  induction l as [|a l IH]; cbn; [reflexivity|]. destruct (q a); cbn; [destruct (p a)|]; rewrite IH; reflexivity.
Qed.

Lemma filter_none {A} (p : A -> bool) l : (forall a, In a l -> p a = false) -> filter p l = [].
Proof.
  induction l as [|a l IH]; intros H; cbn; [reflexivity|]. rewrite (H a (or_introl eq_refl)).
  apply IH. intros; apply H; right; assumption.
Qed.

Lemma role_class (r : nrepo) role c : nrepo_ok r ->
  filter (is_class c) (get_by_linkrole r role) = filter (fun n => str_eqb (n_role n) role) (class_list r c).
Proof.
  unfold nrepo_ok, get_by_linkrole, class_list. induction r as [|[k l] r IH]; intros [H1 H2]; [reflexivity|].
  cbn. rewrite filter_app, filter_filter. inversion H1 as [|? ? Hk Hn]; subst.
  destruct (nclass_eqb_spec k c) as [->|N].
  - assert (E : filter (is_class c) (flat_map (fun e => filter (fun n => str_eqb (n_role n) role) (snd e)) r) = []).
    { apply filter_none. intros a Ha. apply in_flat_map in Ha. destruct Ha as ([k' l'] & Hin & Ha). cbn in Ha.
      apply filter_In in Ha. destruct Ha as [Ha _]. unfold is_class.
      destruct (nclass_eqb_spec (n_class a) c) as [E|]; [|reflexivity]. exfalso. apply Hk.
      rewrite <- E, (H2 k' l' a (or_intror Hin) Ha). apply (in_map fst _ _ Hin). }
    rewrite E, app_nil_r. apply filter_ext_in. intros a Ha.
    rewrite <- (H2 c l a (or_introl eq_refl) Ha). unfold is_class.
    destruct (nclass_eqb_spec (n_class a) (n_class a)); [apply andb_true_r|congruence].
  - assert (E : filter (fun a => str_eqb (n_role a) role && is_class c a) l = []).
    { apply filter_none. intros a Ha. unfold is_class. rewrite (H2 k l a (or_introl eq_refl) Ha).
      destruct (nclass_eqb_spec k c); [congruence|apply andb_false_r]. }
    rewrite E. cbn. apply IH. split; [exact Hn|]. intros c' l' n Hin Hn'. exact (H2 c' l' n (or_intror Hin) Hn').
Qed.

(** The networks of a class and a role, in the order in which they were stored. *)
Lemma role_networks ops role c :
  filter (is_class c) (get_by_linkrole (networks_after ops) role) =
  filter (fun n => is_class c n && str_eqb (n_role n) role) (stored ops).
Proof.
  rewrite role_class by apply networks_after_ok. rewrite networks_after_list. apply filter_filter.
Qed.

Lemma of_class_spec c role n : is_class c n && str_eqb (n_role n) role = true <-> of_class c role n.
Proof.
  unfold is_class, of_class. rewrite andb_true_iff. rewrite str_eqb_eq.
  destruct (nclass_eqb_spec (n_class n) c); intuition congruence.
Qed.

Lemma logical_networks ops role :
  filter is_logical_definition (get_by_linkrole (networks_after ops) role) =
  filter (fun n => (is_class NDefinition n && str_eqb (n_role n) role) && negb (n_physical n)) (stored ops).
Proof.
  unfold is_logical_definition. rewrite <- (filter_filter (fun n => negb (n_physical n)) (is_class NDefinition)).
  rewrite role_networks. apply filter_filter.
Qed.

Lemma logical_spec role n :
  (is_class NDefinition n && str_eqb (n_role n) role) && negb (n_physical n) = true <-> logical_definition role n.
Proof.
  unfold logical_definition. rewrite andb_true_iff, of_class_spec. destruct (n_physical n); cbn; intuition congruence.
Qed.

Lemma existsb_filter {A} (p : A -> bool) l : existsb p l = true <-> filter p l <> [].
Proof.
  induction l as [|a l IH]; cbn; [intuition congruence|]. destruct (p a); cbn; [intuition congruence|exact IH].
Qed.

Lemma exists_networks ops role c :
  existsb (is_class c) (get_by_linkrole (networks_after ops) role) = true <->
  exists n, In n (stored ops) /\ of_class c role n.
Proof.
  rewrite existsb_filter, role_networks. rewrite <- existsb_filter, existsb_exists.
  split; intros (n & Hn & H); exists n; (split; [exact Hn|]); apply of_class_spec; exact H.
Qed.

(** ** One component *)

Definition warning_codes : list string :=
  [ "PRESENTATION_NETWORK_IN_COMPONENT_WITHOUT_USEDON_ELEMENT";
    "CALCULATION_NETWORK_IN_COMPONENT_WITHOUT_USEDON_ELEMENT";
    "DEFINITION_NETWORK_IN_COMPONENT_WITHOUT_USEDON_ELEMENT";
    "MULTIPLE_PRESENTATION_NETWORKS_IN_COMPONENT";
    "MULTIPLE_CALCULATION_NETWORKS_IN_COMPONENT";
    "MULTIPLE_DEFINITION_NETWORKS_IN_COMPONENT" ]%string.

Lemma warnings_insert code x role (es : repo xml) : In code warning_codes ->
  exists e, create code (Some x) [(u "linkrole_uri", role)] = Ok e /\
    insert es code (Some x) [(u "linkrole_uri", role)] = Ok (es ++ [e]).
Proof.
  intros H. assert (Hc : exists e, create code (Some x) [(u "linkrole_uri", role)] = Ok e).
  { repeat destruct H as [<-|H]; try destruct H; eexists (Error _ _ _ _ _ _); vm_compute; reflexivity. }
  destruct Hc as [e He]. exists e. split; [exact He|]. unfold insert. rewrite He. reflexivity.
Qed.

Lemma warning_codes_nodup : NoDup warning_codes.
Proof. repeat constructor; cbn; intuition discriminate. Qed.

(** The conditions the parser tests, in its order. *)
Definition tests (nets : nrepo) (x : xml) (role uri : str) : list (string * bool) :=
  let used_ons := map x_text (link_kids uri (u "usedOn") x) in
  let ns := get_by_linkrole nets role in
  combine warning_codes
    [ negb (text_in (u "link:presentationLink") used_ons) && existsb (is_class NPresentation) ns;
      negb (text_in (u "link:calculationLink") used_ons) && existsb (is_class NCalculation) ns;
      negb (text_in (u "link:definitionLink") used_ons) && existsb (is_class NDefinition) ns;
      Nat.ltb 1 (length (filter (is_class NPresentation) ns));
      Nat.ltb 1 (length (filter (is_class NCalculation) ns));
      Nat.ltb 1 (length (filter is_logical_definition ns)) ].

Definition made (nets : nrepo) (x : xml) (role uri : str) : component :=
  let ns := get_by_linkrole nets role in
  Component role (text_of (hd_error (link_kids uri (u "definition") x)))
    (hd_error (filter (is_class NPresentation) ns)) (hd_error (filter (is_class NCalculation) ns))
    (hd_error (filter is_logical_definition ns)).

Local Opaque u insert create.

Lemma report_if_ok cond code x role (es : repo xml) es' :
  (forall es, exists e, create code (Some x) [(u "linkrole_uri", role)] = Ok e /\
     insert es code (Some x) [(u "linkrole_uri", role)] = Ok (es ++ [e])) ->
  report_if cond code x role es = Ok es' ->
  exists l, es' = es ++ l /\
    Forall2 (fun code e => create code (Some x) [(u "linkrole_uri", role)] = Ok e) (map fst (filter snd [(code, cond)])) l.
Proof.
  intros H. unfold report_if. destruct cond; cbn.
  - destruct (H es) as (e & Hc & ->). intros [= <-]. exists [e]. split; [reflexivity|]. constructor; [exact Hc|constructor].
  - intros [= <-]. exists []. rewrite app_nil_r. split; [reflexivity|constructor].
Qed.

Lemma report_if_total cond code x role (es : repo xml) :
  (forall es, exists e, create code (Some x) [(u "linkrole_uri", role)] = Ok e /\
     insert es code (Some x) [(u "linkrole_uri", role)] = Ok (es ++ [e])) ->
  exists es', report_if cond code x role es = Ok es'.
Proof.
  intros H. unfold report_if. destruct cond; [|eauto]. destruct (H es) as (e & _ & ->). eauto.
Qed.

Lemma parse_component_shape nets x es : parse_component nets x es =
  match attr x (u "roleURI"), dict_get key_eqb (x_scope x) (Some (u "link")) with
  | None, _ => Raise ValueError
  | Some _, None => Raise SyntaxError
  | Some role, Some uri =>
      do! es' <- fold_left (fun r t => do! es <- r; report_if (snd t) (fst t) x role es) (tests nets x role uri) (Ok es);
      Ok (made nets x role uri, es')
  end.
Proof.
  unfold parse_component, get_str_attribute. destruct (attr x (u "roleURI")) as [role|]; [|reflexivity].
  cbn [bind]. destruct (dict_get key_eqb (x_scope x) (Some (u "link"))) as [uri|]; [|reflexivity].
  cbv zeta. unfold tests, warning_codes. cbv zeta. cbn [combine fold_left fst snd bind].
  assert (Hm : made nets x role uri = Component role
     (match link_kids uri (u "definition") x with k :: _ => match x_text k with Some t => t | None => [] end | [] => [] end)
     (hd_error (filter (is_class NPresentation) (get_by_linkrole nets role)))
     (hd_error (filter (is_class NCalculation) (get_by_linkrole nets role)))
     (hd_error (filter is_logical_definition (get_by_linkrole nets role)))).
  { unfold made. cbv zeta. destruct (link_kids uri (u "definition") x); reflexivity. }
  rewrite Hm. clear Hm.
  repeat (match goal with |- context [report_if ?c ?k x role ?e] =>
            match e with context [report_if] => fail 1 | _ => destruct (report_if c k x role e) as [?es|?e]; cbn [bind]; [|reflexivity] end end).
  reflexivity.
Qed.

Lemma fold_reports x role (ts : list (string * bool)) : (forall t, In t ts -> In (fst t) warning_codes) ->
  forall (es : repo xml), exists l,
    fold_left (fun r t => do! es <- r; report_if (snd t) (fst t) x role es) ts (Ok es) = Ok (es ++ l) /\
    Forall2 (fun code e => create code (Some x) [(u "linkrole_uri", role)] = Ok e) (map fst (filter snd ts)) l.
Proof.
  induction ts as [|[c b] ts IH]; intros Hin es; cbn [fold_left].
  - exists []. rewrite app_nil_r. split; [reflexivity|constructor].
  - cbn [bind fst snd].
    assert (Hc : forall es, exists e, create c (Some x) [(u "linkrole_uri", role)] = Ok e /\
              insert es c (Some x) [(u "linkrole_uri", role)] = Ok (es ++ [e]))
      by (intros; apply warnings_insert; exact (Hin (c, b) (or_introl eq_refl))).
    destruct (report_if_total b c x role es Hc) as [es1 E]. rewrite E.
    destruct (report_if_ok _ _ _ _ _ _ Hc E) as (l1 & -> & H1).
    destruct (IH (fun t Ht => Hin t (or_intror Ht)) (es ++ l1)) as (l2 & -> & H2).
    exists (l1 ++ l2). rewrite app_assoc. split; [reflexivity|].
    cbn [filter] in *. cbn [map filter] in H1. destruct b; cbn [map] in *.
    + inversion H1 as [|? e ? r Hx Hr]; subst. inversion Hr; subst. cbn. constructor; assumption.
    + inversion H1; subst. exact H2.
Qed.

Lemma tests_codes nets x role uri t : In t (tests nets x role uri) -> In (fst t) warning_codes.
Proof. unfold tests. cbv zeta. destruct t as [c b]. intros H. apply in_combine_l in H. exact H. Qed.

Lemma tests_nodup nets x role uri : NoDup (map fst (filter snd (tests nets x role uri))).
Proof.
  assert (G : forall (l : list (string * bool)), NoDup (map fst l) -> NoDup (map fst (filter snd l))).
  { induction l as [|[c b] l IH]; cbn; intros H; [constructor|]. inversion H; subst.
    destruct b; cbn; [|auto]. constructor; [|auto]. intros Hin. apply in_map_iff in Hin.
    destruct Hin as (t & <- & Ht). apply filter_In in Ht. apply H2. apply in_map. apply Ht. }
  apply G. exact warning_codes_nodup.
Qed.

Lemma text_in_spec t l : text_in t l = true <-> In (Some t) l.
Proof.
  unfold text_in. rewrite existsb_exists. split.
  - intros (y & Hy & E). destruct (opt_eqb_spec (Some t) y); [subst; auto|discriminate].
  - intros H. exists (Some t). split; [exact H|]. destruct (opt_eqb_spec (Some t) (Some t)); congruence.
Qed.

Lemma tagged_spec uri name k : opt_eqb str_eqb (x_tag k) (Some (to_clark uri name)) = true <-> tagged uri name k.
Proof.
  destruct (opt_eqb_spec (x_tag k) (Some (to_clark uri name))) as [E|E]; split; intros H; auto; try discriminate H.
Qed.

Lemma used_on_spec x uri (text : string) : link_at x uri ->
  (text_in (u text) (map x_text (link_kids uri (u "usedOn") x)) = true <-> used_on x text).
Proof.
  intros Hu. rewrite text_in_spec, in_map_iff. unfold used_on, link_kids. split.
  - intros (k & Ht & Hk). apply filter_In in Hk. destruct Hk as [Hk Hg].
    exists uri, k. repeat split; auto. apply tagged_spec, Hg.
  - intros (uri' & k & Hu' & Hk & Hg & Ht). unfold link_at in *. assert (uri' = uri) by congruence. subst uri'.
    exists k. split; [exact Ht|]. apply filter_In. split; [exact Hk|]. apply tagged_spec, Hg.
Qed.

Lemma negb_true_not b P : (b = true <-> P) -> (negb b = true <-> ~ P).
Proof. destruct b; cbn; intuition congruence. Qed.

Lemma tests_warned ops x role uri code : link_at x uri ->
  (In code (map fst (filter snd (tests (networks_after ops) x role uri))) <-> warned (stored ops) x role code).
Proof.
  intros Hu.
  assert (Hin : forall ts : list (string * bool), In code (map fst (filter snd ts)) <-> In (code, true) ts).
  { intros ts. rewrite in_map_iff. split.
    - intros ([c b] & <- & H). apply filter_In in H. cbn in *. destruct H as [H ->]. exact H.
    - intros H. exists (code, true). split; [reflexivity|]. apply filter_In. auto. }
  rewrite Hin. unfold tests, warning_codes. cbv zeta. cbn [combine].
  pose proof (fun t => used_on_spec x uri t Hu) as HU.
  pose proof (fun c => exists_networks ops role c) as HE.
  assert (HT : forall c, Nat.ltb 1 (length (filter (is_class c) (get_by_linkrole (networks_after ops) role))) = true <->
                twice (of_class c role) (stored ops)).
  { intros c. rewrite role_networks. apply twice_filter. intros; apply of_class_spec. }
  assert (HD : Nat.ltb 1 (length (filter is_logical_definition (get_by_linkrole (networks_after ops) role))) = true <->
                twice (logical_definition role) (stored ops)).
  { rewrite logical_networks. apply twice_filter. intros; apply logical_spec. }
  split.
  - intros [H|[H|[H|[H|[H|[H|[]]]]]]]; injection H as <- Hb.
    1-3: apply andb_true_iff in Hb; destruct Hb as [Hb1 Hb2]; apply HE in Hb2; apply (negb_true_not _ _ (HU _)) in Hb1;
         constructor; assumption.
    all: constructor; first [apply HT; exact Hb|apply HD; exact Hb].
  - intros H. destruct H as [H1 H2|H1 H2|H1 H2|H|H|H].
    1-3: apply HE in H1; apply (negb_true_not _ _ (HU _)) in H2; rewrite H1, H2; cbn; auto 10.
    1-2: apply HT in H; rewrite H; cbn; auto 10.
    apply HD in H. rewrite H. cbn. auto 10.
Qed.

Lemma made_declares ops x role uri : attr x (u "roleURI") = Some role -> link_at x uri ->
  declares (stored ops) x (made (networks_after ops) x role uri).
Proof.
  intros Ha Hu. unfold declares, made. cbv zeta. cbn [c_uri c_info c_presentation c_calculation c_definition].
  split; [exact Ha|]. split; [|split; [|split]].
  - exists uri, (hd_error (link_kids uri (u "definition") x)). split; [exact Hu|]. split; [|reflexivity].
    unfold link_kids. apply first_such_head. intros; apply tagged_spec.
  - rewrite role_networks. apply first_such_head. intros; apply of_class_spec.
  - rewrite role_networks. apply first_such_head. intros; apply of_class_spec.
  - rewrite logical_networks. apply first_such_head. intros; apply logical_spec.
Qed.

Lemma declares_unique ns x c c' : declares ns x c -> declares ns x c' -> c = c'.
Proof.
  intros (A & (uri & k & L & I & T) & P & C & D) (A' & (uri' & k' & L' & I' & T') & P' & C' & D').
  destruct c as [cu ci cp cc cd], c' as [cu' ci' cp' cc' cd']. cbn in *.
  assert (cu' = cu) by congruence. subst cu'. unfold link_at in *. assert (uri' = uri) by congruence. subst uri'.
  rewrite (first_such_unique _ _ _ _ I' I) in T'.
  rewrite (first_such_unique _ _ _ _ P' P), (first_such_unique _ _ _ _ C' C), (first_such_unique _ _ _ _ D' D).
  congruence.
Qed.

(** ** Documents *)

Section XmlInd.
  Variable P : xml -> Prop.
  Hypothesis H : forall t a s tx ks, Forall P ks -> P (Xml t a s tx ks).
  Fixpoint xml_ind' (x : xml) : P x :=
    match x with
    | Xml t a s tx ks => H t a s tx ks
        ((fix go (l : list xml) : Forall P l :=
            match l with [] => Forall_nil P | k :: r => Forall_cons k (xml_ind' k) (go r) end) ks)
    end.
End XmlInd.

Lemma descendants_inside root x : In x (descendants root) <-> inside root x.
Proof.
  assert (E : forall r, descendants r = flat_map (fun k => k :: descendants k) (x_kids r)).
  { intros [t a s tx ks]. cbn [x_kids]. change (descendants (Xml t a s tx ks)) with
      ((fix go (l : list xml) : list xml := match l with [] => [] | k :: r => k :: descendants k ++ go r end) ks).
    induction ks as [|k ks IH]; [reflexivity|]. cbn. rewrite IH. reflexivity. }
  split.
  - revert x. induction root as [t a s tx ks IH] using xml_ind'. intros x.
    rewrite E. cbn [x_kids]. intros H. apply in_flat_map in H. destruct H as (k & Hk & [<-|H]).
    + apply inside_kid. exact Hk.
    + eapply inside_deep; [exact Hk|]. rewrite Forall_forall in IH. exact (IH k Hk x H).
  - induction 1 as [root k H|root k x Hk _ IH]; rewrite E, in_flat_map.
    + exists k. split; [exact H|left; reflexivity].
    + exists k. split; [exact Hk|right; exact IH].
Qed.
