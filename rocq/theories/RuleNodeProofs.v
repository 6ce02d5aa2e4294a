(** Proofs about the nodes, the filters and the links of table linkbases. *)
From Verif Require Import Base Regex PyNum QNameModel CtxModel TableModel RuleModel RuleSpec RuleProofs.
From Coq Require Import Lia.
Local Open Scope nat_scope.

Lemma key_eqb_spec a b : reflect (a = b) (key_eqb a b).
Proof.
  unfold key_eqb, opt_eqb. destruct a as [x|], b as [y|]; try (constructor; congruence).
  destruct (str_eqb_spec x y) as [->|Hn]; constructor; congruence.
Qed.

(** ** The last child of a kind *)

Lemma last_nil P c : ~ last_in P [] c.
Proof. intros (pre & post & E & _). destruct pre; discriminate E. Qed.

Lemma last_cons P k kids c : last_in P (k :: kids) c <->
  last_in P kids c \/ (P k /\ c = k /\ forall j, In j kids -> ~ P j).
Proof.
  split.
  - intros (pre & post & E & Hc & Hp). destruct pre as [|k0 pre]; cbn in E; injection E as -> ->.
    + right. auto.
    + left. exists pre, post. auto.
  - intros [(pre & post & -> & Hc & Hp)|(Hk & -> & Hn)].
    + exists (k :: pre), post. auto.
    + exists [], kids. auto.
Qed.

Lemma last_fun P kids c c' : last_in P kids c -> last_in P kids c' -> c = c'.
Proof.
  revert c c'. induction kids as [|k kids IH]; intros c c' H H'; [destruct (last_nil _ _ H)|].
  apply last_cons in H, H'. destruct H as [H|(Hk & -> & Hn)], H' as [H'|(Hk' & -> & Hn')]; auto.
  - destruct H as (pre & post & -> & Hc & _). exfalso. apply (Hn' c); [apply in_elt|assumption].
  - destruct H' as (pre & post & -> & Hc & _). exfalso. apply (Hn c'); [apply in_elt|assumption].
Qed.

Lemma last_none P kids c : (forall k, In k kids -> ~ P k) -> ~ last_in P kids c.
Proof. intros H (pre & post & -> & Hc & _). apply (H c); [apply in_elt|assumption]. Qed.

(** ** Rule nodes *)

Lemma find_app {A} (p : A -> bool) l l' : find p (l ++ l') = match find p l with Some a => Some a | None => find p l' end.
Proof. induction l as [|a l IH]; cbn; [reflexivity|]. destruct (p a); auto. Qed.

Lemma fold_sets sets : forall d k,
  dict_get key_eqb (fold_left (fun d s => dict_set key_eqb d (rs_tag s) s) sets d) k =
  match find (fun s => key_eqb (rs_tag s) k) (rev sets) with Some s => Some s | None => dict_get key_eqb d k end.
Proof.
  induction sets as [|s sets IH]; intros d k; cbn [fold_left rev]; [reflexivity|].
  rewrite IH. rewrite find_app. destruct (find _ (rev sets)) as [s'|]; [reflexivity|]. cbn [find].
  destruct (key_eqb_spec (rs_tag s) k) as [<-|Hn].
  - apply (dict_get_set_same _ key_eqb_spec).
  - apply (dict_get_set_other _ key_eqb_spec). exact Hn.
Qed.

Lemma find_last_set kids m t : listed set_of kids m ->
  match find (fun s => key_eqb (rs_tag s) (Some t)) (rev m) with
  | Some s => exists c, last_in (tagged t) kids c /\ rs_tag s = Some t /\ listed states (x_kids c) (rs_rules s)
  | None => forall k, In k kids -> ~ tagged t k
  end.
Proof.
  induction 1 as [|x s xs m Hx _ IH|x xs m Hx _ IH].
  - intros k [].
  - cbn [rev]. rewrite find_app. destruct (find _ (rev m)) as [s'|].
    + destruct IH as (c & Hc & H). exists c. split; [|exact H]. apply last_cons. auto.
    + cbn [find]. destruct Hx as (t' & Ht & E & Hl). destruct (key_eqb_spec (rs_tag s) (Some t)) as [E'|Hn].
      * exists x. split; [|auto]. apply last_cons. right. assert (t' = t) by congruence. subst t'. auto.
      * intros k [<-|Hk]; [|auto]. intros (_ & Ha & _). destruct Ht as (_ & Ha' & _). congruence.
  - destruct (find _ (rev m)) as [s'|].
    + destruct IH as (c & Hc & H). exists c. split; [|exact H]. apply last_cons. auto.
    + intros k [<-|Hk]; [|auto]. intros Ht.
      destruct (rule_set_exact x) as (r & _ & Hr). destruct r as [s|].
      * destruct Hr as (t' & E & Ha & Hne & Hl). apply (Hx s). exists t'. destruct Ht as (H1 & _). split; [|auto]. split; auto.
      * destruct Ht as (_ & Ha & Hne). auto.
Qed.

Lemma order_exact x : match parse_parent_child_order x with
  | Ok o => order_written x o
  | Raise e => e = ValueError /\ forall o, ~ order_written x o
  end.
Proof.
  unfold parse_parent_child_order, porder_of, order_written, attr_is.
  destruct (attr x (u "parentChildOrder")) as [v|]; [|cbn; auto].
  destruct (str_eqb_spec v (u "parent-first")) as [->|N1]; [reflexivity|].
  destruct (str_eqb_spec v (u "children-first")) as [->|N2]; [reflexivity|].
  destruct (str_eqb_spec v []) as [->|N3]; [auto|]. split; [reflexivity|]. intros [| |] H; [congruence|congruence|].
  destruct H; congruence.
Qed.

Lemma order_fun x o o' : order_written x o -> order_written x o' -> o = o'.
Proof.
  unfold order_written, attr_is. intros H H'.
  assert (E : u "parent-first" <> u "children-first") by (intros E; vm_compute in E; discriminate E).
  assert (E1 : u "parent-first" <> []) by (intros E'; vm_compute in E'; discriminate E').
  assert (E2 : u "children-first" <> []) by (intros E'; vm_compute in E'; discriminate E').
  destruct o, o'; try reflexivity; exfalso; intuition congruence.
Qed.

Lemma flag_exact x (name : str) : str_eqb (attr_or x name (u "false")) (u "true") = true <-> attr x name = Some (u "true").
Proof.
  unfold attr_or. destruct (attr x name) as [v|].
  - destruct (str_eqb_spec v (u "true")) as [->|Hn]; split; congruence.
  - split; [|discriminate]. intros H. vm_compute in H. discriminate H.
Qed.

(** ** Relationship nodes *)

Definition source_of (k : xml) (q : qname) : Prop := table_el "relationshipSource" k /\ names k q.

Lemma source_fun k q q' : source_of k q -> source_of k q' -> q = q'.
Proof. intros [_ H] [_ H']. eapply names_fun; eauto. Qed.

Definition known (rep : repository) (q : qname) : Prop :=
  exists e, dict_get qname_eqb (by_qname rep) q = Some e /\ e_kind e = KConcept.

Lemma typed_exact (is_t : element -> bool) rep q :
  has_typed_qname is_t rep q = true <-> exists e, dict_get qname_eqb (by_qname rep) q = Some e /\ is_t e = true.
Proof.
  unfold has_typed_qname, get_typed_by_qname, get_by_qname. destruct (dict_get qname_eqb (by_qname rep) q) as [e|]; cbn.
  - destruct (is_t e) eqn:E; cbn; split; try discriminate; eauto. intros (e' & [= <-] & H). congruence.
  - split; [discriminate|]. intros (e & H & _). discriminate H.
Qed.

Lemma known_exact rep q : has_typed_qname is_concept rep q = true <-> known rep q.
Proof.
  rewrite typed_exact. unfold known, is_concept.
  split; intros (e & H & K); exists e; (split; [exact H|]); destruct (e_kind e); congruence.
Qed.

Lemma generations_exact t :
  generations_of t (match py_int t with Some z => if (0 <? z)%Z then z else 0%Z | None => 0%Z end).
Proof.
  unfold generations_of. destruct (py_int t) as [z|].
  - destruct (Z.ltb_spec 0 z); [left; eauto|right]. split; [reflexivity|]. intros z' [= <-]. lia.
  - right. split; [reflexivity|]. discriminate.
Qed.

Lemma generations_fun t n n' : generations_of t n -> generations_of t n' -> n = n'.
Proof.
  intros [(z & E & Hz & ->)|[-> H]] [(z' & E' & Hz' & ->)|[-> H']]; try congruence.
  - specialize (H' _ E). lia.
  - specialize (H _ E'). lia.
Qed.

Lemma no_axis_match a : existsb (pyval_eqb (PAxis a)) (map (fun a => PStr (axis_value a)) all_axes) = false.
Proof. reflexivity. Qed.

Definition given (P : xml -> Prop) {A} (kids : list xml) (reads : xml -> A -> Prop) (default v : A) : Prop :=
  (exists c, last_in P kids c /\ reads c v) \/ (forall k, In k kids -> ~ P k) /\ v = default.

Lemma given_skip (P : xml -> Prop) {A} k kids (reads : xml -> A -> Prop) d v : ~ P k ->
  given P kids reads d v -> given P (k :: kids) reads d v.
Proof.
  intros Hk [(c & Hc & Hr)|[Hn ->]].
  - left. exists c. rewrite last_cons. auto.
  - right. split; [|reflexivity]. intros j [<-|Hj]; auto.
Qed.
Lemma given_take (P : xml -> Prop) {A} k kids (reads : xml -> A -> Prop) d d' v : P k -> reads k d' ->
  given P kids reads d' v -> given P (k :: kids) reads d v.
Proof.
  intros Hk Hr [(c & Hc & Hr')|[Hn ->]]; left.
  - exists c. rewrite last_cons. auto.
  - exists k. rewrite last_cons. auto.
Qed.
Lemma given_fun (P : xml -> Prop) {A} kids (reads : xml -> A -> Prop) d v w :
  (forall c v w, reads c v -> reads c w -> v = w) -> given P kids reads d v -> given P kids reads d w -> v = w.
Proof.
  intros HR [(c & Hc & H)|[Hn ->]] [(c' & Hc' & H')|[Hn' ->]]; auto.
  - rewrite (last_fun _ _ _ _ Hc Hc') in H. eauto.
  - destruct (last_none _ _ _ Hn' Hc).
  - destruct (last_none _ _ _ Hn Hc').
Qed.

Definition says_generations (c : xml) (n : Z) : Prop := exists t, says c t /\ generations_of t n.

(** What stops a relationship node. *)
Definition rel_bad (rep : repository) (k : xml) : Prop :=
  table_el "formulaAxis" k \/ exists q, source_of k q /\ ~ known rep q.

Lemma relationship_exact rep b kids : forall st, exists r, relationship_loop rep b st kids = Ok r /\
  match r with
  | None => exists k, In k kids /\ rel_bad rep k
  | Some st' =>
      (forall k, In k kids -> ~ rel_bad rep k) /\ st_axis st' = st_axis st /\
      (exists l, listed source_of kids l /\ st_sources st' = st_sources st ++ map SourceName l) /\
      given (table_el "linkrole") kids says (st_linkrole st) (st_linkrole st') /\
      given (table_el "generations") kids says_generations (st_generations st) (st_generations st')
  end.
Proof.
  induction kids as [|k kids IH]; intros st; cbn [relationship_loop].
  - exists (Some st). split; [reflexivity|]. split; [intros k []|]. split; [reflexivity|].
    split; [exists []; split; [constructor|symmetry; apply app_nil_r]|]. split; right; (split; [intros k []|reflexivity]).
  - cbv zeta.
    assert (G : forall st2, st_axis st2 = st_axis st ->
      (exists l1, listed source_of [k] l1 /\ st_sources st2 = st_sources st ++ map SourceName l1) ->
      (forall v, given (table_el "linkrole") kids says (st_linkrole st2) v -> given (table_el "linkrole") (k :: kids) says (st_linkrole st) v) ->
      (forall v, given (table_el "generations") kids says_generations (st_generations st2) v -> given (table_el "generations") (k :: kids) says_generations (st_generations st) v) ->
      ~ rel_bad rep k ->
      exists r, relationship_loop rep b st2 kids = Ok r /\
      match r with
      | None => exists k', In k' (k :: kids) /\ rel_bad rep k'
      | Some st' => (forall k', In k' (k :: kids) -> ~ rel_bad rep k') /\ st_axis st' = st_axis st /\
          (exists l, listed source_of (k :: kids) l /\ st_sources st' = st_sources st ++ map SourceName l) /\
          given (table_el "linkrole") (k :: kids) says (st_linkrole st) (st_linkrole st') /\
          given (table_el "generations") (k :: kids) says_generations (st_generations st) (st_generations st')
      end).
    { intros st2 Ea (l1 & Hl1 & Es) Hg1 Hg2 Hb. destruct (IH st2) as (r & -> & Hr). exists r. split; [reflexivity|].
      destruct r as [st'|].
      - destruct Hr as (Hr & Ha & (l & Hl & El) & H1 & H2). split; [intros k' [<-|Hk]; auto|]. split; [congruence|].
        split; [|auto]. exists (l1 ++ l). split; [exact (listed_app _ [k] kids l1 l Hl1 Hl)|].
        rewrite El, Es, map_app, app_assoc. reflexivity.
      - destruct Hr as (k' & Hk & Hb'). exists k'. split; [right|]; assumption. }
    assert (S0 : (forall q, ~ source_of k q) -> exists l1, listed source_of [k] l1 /\ st_sources st = st_sources st ++ map SourceName l1).
    { intros Hn. exists []. split; [apply listed_silent; [exact Hn|constructor]|symmetry; apply app_nil_r]. }
    ttag "relationshipSource"%string k.
    { destruct (names_ex k) as [q Hq]. assert (Hs : source_of k q) by (split; assumption).
      pose proof (proj1 (names_iff _ _) Hq) as Eq. rewrite Eq. cbn [bind].
      assert (Er : tag_is root_tag k = false).
      { destruct (tagP root_tag "{http://www.xbrl.org/2008/function/instance}root" k) as [[_ Hr]|[Er _]];
          [vm_compute; reflexivity| |exact Er].
        unfold table_el in *. clash. }
      rewrite Er. destruct (has_typed_qname is_concept rep q) eqn:Ek; cbn [negb andb].
      - apply known_exact in Ek. apply G; cbn [st_axis st_sources st_linkrole st_generations].
        + reflexivity.
        + exists [q]. split; [constructor; [exact Hs|constructor]|reflexivity].
        + intros v. apply given_skip. intros H'. unfold table_el in *. clash.
        + intros v. apply given_skip. intros H'. unfold table_el in *. clash.
        + intros [Hb|(q' & Hq' & Hn)]; [unfold table_el in *; clash|].
          rewrite (source_fun _ _ _ Hq' Hs) in Hn. auto.
      - exists None. split; [reflexivity|]. exists k. split; [left; reflexivity|]. right. exists q. split; [exact Hs|].
        rewrite <- known_exact. congruence. }
    assert (Ns : forall q, ~ source_of k q) by (intros q [Hs _]; auto).
    assert (Nb : ~ table_el "formulaAxis" k -> ~ rel_bad rep k).
    { intros Hn [Hb|(q & Hq & _)]; [auto|]. exact (Ns _ Hq). }
    ttag "linkrole"%string k.
    { apply G; cbn [st_axis st_sources st_linkrole st_generations]; auto.
      - intros v. apply given_take; [assumption|]. apply says_text. reflexivity.
      - intros v. apply given_skip. intros H'. unfold table_el in *. clash.
      - apply Nb. intros H'. unfold table_el in *. clash. }
    ttag "formulaAxis"%string k.
    { rewrite no_axis_match. cbn [negb]. exists None. split; [reflexivity|]. exists k. split; [left; reflexivity|]. left. assumption. }
    ttag "generations"%string k.
    { apply G; cbn [st_axis st_sources st_linkrole st_generations]; auto.
      - intros v. apply given_skip. assumption.
      - intros v. apply given_take; [assumption|]. exists (text_of k). split; [apply says_text; reflexivity|apply generations_exact]. }
    apply G; auto; intros v; apply given_skip; assumption.
Qed.

Lemma rel_bad_split rep kids : (forall k, In k kids -> ~ rel_bad rep k) <->
  (forall k, In k kids -> ~ table_el "formulaAxis" k) /\
  exists l, listed source_of kids l /\ forall q, In q l -> known rep q.
Proof.
  split.
  - intros H. split; [intros k Hk Ha; exact (H k Hk (or_introl Ha))|].
    assert (L : exists l, listed source_of kids l).
    { clear H. induction kids as [|k kids (l & Hl)]; [exists []; constructor|].
      destruct (table_tag "relationshipSource" k) as [[_ Hs]|[_ Hs]].
      - destruct (names_ex k) as [q Hq]. exists (q :: l). constructor; [split|]; assumption.
      - exists l. apply listed_silent; [|exact Hl]. intros q [Hq _]. auto. }
    destruct L as (l & Hl). exists l. split; [exact Hl|]. intros q Hq.
    destruct (has_typed_qname is_concept rep q) eqn:E; [apply known_exact; exact E|]. exfalso.
    assert (Hn : ~ known rep q) by (rewrite <- known_exact; congruence).
    revert H Hq. induction Hl as [|k q' kids l Hk _ IH|k kids l Hk _ IH]; intros H Hq.
    + destruct Hq.
    + destruct Hq as [->|Hq].
      * apply (H k); [left; reflexivity|]. right. eauto.
      * apply IH; [|exact Hq]. intros j Hj. apply H. right. exact Hj.
    + apply IH; [|exact Hq]. intros j Hj. apply H. right. exact Hj.
  - intros [H (l & Hl & Hk)] k Hin [Ha|(q & Hq & Hn)]; [exact (H k Hin Ha)|].
    apply Hn. apply Hk. clear -Hl Hin Hq. induction Hl as [|x a xs l Hx _ IH|x xs l Hx _ IH].
    + destruct Hin.
    + destruct Hin as [->|Hin]; [left; eapply source_fun; eauto|right; auto].
    + destruct Hin as [->|Hin]; [destruct (Hx _ Hq)|auto].
Qed.

Theorem relation_exact rep b x : match parse_relationship_element rep b x with
  | Ok None => (exists o, order_written x o) /\ exists k, In k (x_kids x) /\ rel_bad rep k
  | Ok (Some r) => relation_written rep b x r
  | Raise e => e = ValueError /\ forall o, ~ order_written x o
  end.
Proof.
  unfold parse_relationship_element. pose proof (order_exact x) as Ho.
  destruct (parse_parent_child_order x) as [o|e]; cbn [bind]; [|exact Ho].
  destruct (relationship_exact rep b (x_kids x) (RelState [] default_linkrole DescendantOrSelf 0%Z)) as (r & -> & Hr).
  cbn [bind]. destruct r as [st|]; [|eauto]. destruct Hr as (Hb & Ha & (l & Hl & Es) & H1 & H2). cbn in Ha, Es, H1, H2.
  rewrite Ha.
  assert (Ec : contains (u "descendant") (axis_value DescendantOrSelf) = true) by (vm_compute; reflexivity).
  rewrite Ec. cbn [negb andb]. apply rel_bad_split in Hb. destruct Hb as [Hax (l' & Hl' & Hk)].
  rewrite (listed_fun _ _ _ _ source_fun Hl' Hl) in Hk. clear l' Hl'.
  constructor; cbn [rl_order rl_axis rl_sources rl_linkrole rl_generations rl_selector rl_id rl_label]; try reflexivity.
  - exact Ho.
  - split; [exact Hax|reflexivity].
  - exists l. split; [exact Hl|]. split; [exact Hk|]. rewrite Es. destruct l, b; reflexivity.
  - destruct H1 as [(c & Hc & Hs)|[Hn E]]; [left; exists c; auto|right; auto].
  - destruct H2 as [(c & Hc & t & Hs & Hg)|[Hn E]]; [left; exists c, t; auto|right; auto].
Qed.

Lemma relation_written_fun rep b x r r' : relation_written rep b x r -> relation_written rep b x r' -> r = r'.
Proof.
  intros [A1 [_ A2] (l & A3 & _ & A4) A5 A6 A7 A8 A9] [B1 [_ B2] (l' & B3 & _ & B4) B5 B6 B7 B8 B9].
  assert (E : l = l') by (eapply (listed_fun _ _ _ _ source_fun); eassumption). subst l'.
  assert (EL : rl_linkrole r = rl_linkrole r').
  { eapply (given_fun (table_el "linkrole") (x_kids x) says (u "http://www.xbrl.org/2003/role/link")); [exact says_fun| |].
    - destruct A5 as [(c & Hc & H)|H]; [left; eauto|right; exact H].
    - destruct B5 as [(c & Hc & H)|H]; [left; eauto|right; exact H]. }
  assert (EG : rl_generations r = rl_generations r').
  { eapply (given_fun (table_el "generations") (x_kids x) says_generations 0%Z).
    - intros c v w (t & H1 & H2) (t' & H1' & H2'). rewrite (says_fun _ _ _ H1' H1) in H2'. eapply generations_fun; eauto.
    - destruct A6 as [(c & t & Hc & H)|H]; [left; exists c; split; [exact Hc|exists t; exact H]|right; exact H].
    - destruct B6 as [(c & t & Hc & H)|H]; [left; exists c; split; [exact Hc|exists t; exact H]|right; exact H]. }
  pose proof (order_fun _ _ _ A1 B1) as EO.
  destruct r, r'; cbn in *. congruence.
Qed.
