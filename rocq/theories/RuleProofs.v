(** Proofs about rules, nodes and filters of table linkbases. *)
From Verif Require Import Base Regex PyNum QNameModel CtxModel TableModel RuleModel RuleSpec.
From Coq Require Import Lia.
Local Open Scope nat_scope.

Lemma qname_total s sc : exists q, qname_from_str s sc = Ok q.
Proof.
  unfold qname_from_str, qname_from_clark, qname_from_colon.
  repeat match goal with |- context [match ?e with _ => _ end] => destruct e; eauto end; eauto.
Qed.

Lemma says_text x t : says x t <-> t = text_of x.
Proof.
  unfold says, text_of. destruct (x_text x) as [s|]; split.
  - intros [[= ->]|[H _]]; [reflexivity|discriminate H].
  - intros ->. auto.
  - intros [H|[_ H]]; [discriminate H|exact H].
  - intros ->. auto.
Qed.

Lemma names_iff x q : names x q <-> name_in x = Ok q.
Proof.
  unfold names, name_in. split.
  - intros (t & Ht & H). apply says_text in Ht. subst t. exact H.
  - intros H. exists (text_of x). split; [apply says_text; reflexivity|exact H].
Qed.

Lemma names_ex x : exists q, names x q.
Proof. destruct (qname_total (text_of x) (x_scope x)) as [q H]. exists q. apply names_iff. exact H. Qed.

Lemma names_fun x q q' : names x q -> names x q' -> q = q'.
Proof. rewrite !names_iff. congruence. Qed.
Lemma says_fun x t t' : says x t -> says x t' -> t = t'.
Proof. rewrite !says_text. congruence. Qed.

Lemma tag_is_iff name x : tag_is name x = true <-> x_tag x = Some name.
Proof.
  unfold tag_is. destruct (x_tag x) as [t|]; cbn; [|split; discriminate].
  destruct (str_eqb_spec t name) as [->|Hn]; split; congruence.
Qed.

Lemma tagP name s x : u s = name -> (tag_is name x = true /\ el s x) \/ (tag_is name x = false /\ ~ el s x).
Proof.
  intros E. destruct (tag_is name x) eqn:Et.
  - left. split; [reflexivity|]. constructor. apply tag_is_iff in Et. congruence.
  - right. split; [reflexivity|]. intros [H]. rewrite E in H. apply tag_is_iff in H. congruence.
Qed.
Lemma el_clash a b x : el a x -> el b x -> str_eqb (u a) (u b) = false -> False.
Proof.
  intros [H1] [H2] H. rewrite H1 in H2. assert (E : u a = u b) by congruence. rewrite E in H.
  destruct (str_eqb_spec (u b) (u b)); congruence.
Qed.


Lemma u_formula n : u (String.append "{http://xbrl.org/2008/formula}" n) = formula_prefix (u n).
Proof. vm_compute. reflexivity. Qed.
Lemma u_table n : u (String.append "{http://xbrl.org/2014/table}" n) = table_prefix (u n).
Proof. vm_compute. reflexivity. Qed.
Lemma u_concept n : u (String.append "{http://xbrl.org/2014/filter/" (String.append "concept" (String.append "}" n))) = filter_prefix (u "concept") (u n).
Proof. vm_compute. reflexivity. Qed.
Lemma u_dimension n : u (String.append "{http://xbrl.org/2014/filter/" (String.append "dimension" (String.append "}" n))) = filter_prefix (u "dimension") (u n).
Proof. vm_compute. reflexivity. Qed.
Lemma u_period n : u (String.append "{http://xbrl.org/2014/filter/" (String.append "period" (String.append "}" n))) = filter_prefix (u "period") (u n).
Proof. vm_compute. reflexivity. Qed.

Lemma rule_tag n x : tag_is (formula_prefix (u n)) x = true /\ rule_el n x \/ tag_is (formula_prefix (u n)) x = false /\ ~ rule_el n x.
Proof. exact (tagP _ _ x (u_formula n)). Qed.
Lemma table_tag n x : tag_is (table_prefix (u n)) x = true /\ table_el n x \/ tag_is (table_prefix (u n)) x = false /\ ~ table_el n x.
Proof. exact (tagP _ _ x (u_table n)). Qed.
Lemma concept_tag n x : tag_is (filter_prefix (u "concept") (u n)) x = true /\ filter_el "concept" n x \/ tag_is (filter_prefix (u "concept") (u n)) x = false /\ ~ filter_el "concept" n x.
Proof. exact (tagP _ _ x (u_concept n)). Qed.
Lemma dimension_tag n x : tag_is (filter_prefix (u "dimension") (u n)) x = true /\ filter_el "dimension" n x \/ tag_is (filter_prefix (u "dimension") (u n)) x = false /\ ~ filter_el "dimension" n x.
Proof. exact (tagP _ _ x (u_dimension n)). Qed.
Lemma period_tag n x : tag_is (filter_prefix (u "period") (u n)) x = true /\ filter_el "period" n x \/ tag_is (filter_prefix (u "period") (u n)) x = false /\ ~ filter_el "period" n x.
Proof. exact (tagP _ _ x (u_period n)). Qed.

Ltac rtag n x := destruct (rule_tag n x) as [[-> ?]|[-> ?]].
Ltac ttag n x := destruct (table_tag n x) as [[-> ?]|[-> ?]].
Ltac clash := match goal with
  | H1 : el ?a ?x, H2 : el ?b ?x |- _ => exfalso; exact (el_clash a b x H1 H2 ltac:(vm_compute; reflexivity))
  | H1 : el ?a ?x, H2 : ~ el ?a ?x |- _ => exfalso; exact (H2 H1)
  | H1 : el ?a ?x, H2 : el ?a ?x -> False |- _ => exfalso; exact (H2 H1)
  end.

Lemma listed_fun {A} (P : xml -> A -> Prop) xs l l' :
  (forall x a b, P x a -> P x b -> a = b) -> listed P xs l -> listed P xs l' -> l = l'.
Proof.
  intros HP H. revert l'. induction H as [|x a xs l Hx _ IH|x xs l Hx _ IH]; intros l' H'; inversion H'; subst; auto.
  all: try (f_equal; eauto; fail).
  all: exfalso; match goal with H : forall a, ~ ?Q ?x a, H1 : ?Q ?x _ |- _ => exact (H _ H1) end.
Qed.

Lemma listed_app {A} (P : xml -> A -> Prop) xs ys l m : listed P xs l -> listed P ys m -> listed P (xs ++ ys) (l ++ m).
Proof. induction 1; cbn; intros; auto; constructor; auto. Qed.

(** ** Rules *)

Lemma value_exact (k : name_or_expr -> option formula) x (r : res (option formula)) :
  (forall v w, k v = k w -> v = w) -> (forall v, k v <> None) ->
  (if tag_is (formula_prefix (u "qname")) x then do! q <- name_in x; Ok (k (Name q))
   else if tag_is (formula_prefix (u "qnameExpression")) x then Ok (k (Expr (text_of x))) else r) = r /\
   (~ rule_el "qname" x /\ ~ rule_el "qnameExpression" x) \/
  exists v, value_in x v /\
  (if tag_is (formula_prefix (u "qname")) x then do! q <- name_in x; Ok (k (Name q))
   else if tag_is (formula_prefix (u "qnameExpression")) x then Ok (k (Expr (text_of x))) else r) = Ok (k v).
Proof.
  intros Hk Hn. rtag "qname"%string x.
  - right. destruct (names_ex x) as [q Hq]. exists (Name q). split; [left; eauto|].
    rewrite names_iff in Hq. rewrite Hq. reflexivity.
  - rtag "qnameExpression"%string x.
    + right. exists (Expr (text_of x)). split; [|reflexivity]. right. split; [assumption|].
      exists (text_of x). split; [reflexivity|]. apply says_text. reflexivity.
    + left. split; [reflexivity|]. split; assumption.
Qed.

Lemma value_in_fun x v w : value_in x v -> value_in x w -> v = w.
Proof.
  intros [(H1 & q & -> & Hq)|(H1 & t & -> & Ht)] [(H2 & q' & -> & Hq')|(H2 & t' & -> & Ht')].
  - f_equal. eapply names_fun; eauto.
  - unfold rule_el, table_el, filter_el in *. clash.
  - unfold rule_el, table_el, filter_el in *. clash.
  - f_equal. eapply says_fun; eauto.
Qed.

Lemma value_in_tag x v : value_in x v -> rule_el "qname" x \/ rule_el "qnameExpression" x.
Proof. intros [[H _]|[H _]]; auto. Qed.

Lemma first_concept_exact kids : exists r, first_concept kids = Ok r /\
  forall f, r = Some f <-> exists pre c post v, kids = pre ++ c :: post /\
    (forall k, In k pre -> ~ rule_el "qname" k /\ ~ rule_el "qnameExpression" k) /\ value_in c v /\ f = FConcept v.
Proof.
  induction kids as [|c kids (r & E & IH)]; cbn [first_concept].
  - exists None. split; [reflexivity|]. intros f. split; [discriminate|].
    intros (pre & c & post & v & H & _). destruct pre; discriminate H.
  - destruct (value_exact (fun v => Some (FConcept v)) c (first_concept kids)) as [[-> [N1 N2]]|(v & Hv & ->)];
      [congruence|discriminate| |].
    + exists r. split; [exact E|]. intros f. rewrite IH. split; intros (pre & c' & post & v & H & Hp & Hv & ->).
      * exists (c :: pre), c', post, v. rewrite H. split; [reflexivity|]. split; [|auto].
        intros k [<-|Hk]; auto.
      * destruct pre as [|c0 pre]; cbn in H; injection H as -> ->.
        -- apply value_in_tag in Hv. tauto.
        -- exists pre, c', post, v. repeat split; auto; intros; apply Hp; right; assumption.
    + exists (Some (FConcept v)). split; [reflexivity|]. intros f. split.
      * intros [= <-]. exists [], c, kids, v. repeat split; auto; intros k [].
      * intros (pre & c' & post & v' & H & Hp & Hv' & ->). destruct pre as [|c0 pre]; cbn in H; injection H as -> ->.
        -- rewrite (value_in_fun _ _ _ Hv Hv'). reflexivity.
        -- apply value_in_tag in Hv. destruct (Hp c0 (or_introl eq_refl)). tauto.
Qed.

Theorem formula_exact x : exists r, parse_formula_aspect_element x = Ok r /\ forall f, r = Some f <-> states x f.
Proof.
  unfold parse_formula_aspect_element.
  rtag "concept"%string x.
  { assert (E0 : parse_concept_formula_element x = first_concept (x_kids x)).
    { unfold parse_concept_formula_element. destruct (x_kids x); reflexivity. }
    rewrite E0. destruct (first_concept_exact (x_kids x)) as (r & E & Hr). exists r. split; [exact E|].
    intros f. rewrite Hr. split.
    - intros (pre & c & post & v & Hpc & Hp & Hv & ->). eapply states_concept; eauto.
    - intros Hs. destruct Hs; unfold rule_el, table_el, filter_el in *; try clash. eauto 10. }
  rtag "period"%string x.
  { unfold parse_period_formula_element.
    assert (G : (forall c, x_kids x <> [c]) -> forall f, @None formula = Some f <-> states x f).
    { intros Hk f. split; [discriminate|]. intros Hs. destruct Hs; unfold rule_el, table_el, filter_el in *; try clash; exfalso; eapply Hk; eassumption. }
    destruct (x_kids x) as [|c [|c' l]] eqn:Ek.
    1,3: exists None; split; [reflexivity|]; apply G; discriminate.
    clear G.
    rtag "forever"%string c.
    { exists (Some FForever). split; [reflexivity|]. intros f. split.
      - intros [= <-]. eapply states_forever; eauto.
      - intros Hs. destruct Hs; unfold rule_el, table_el, filter_el in *; try clash; rewrite Ek in *;
          match goal with H : [_] = [_] |- _ => injection H as <- end; try clash; reflexivity. }
    rtag "instant"%string c.
    { eexists. split; [reflexivity|]. intros f. split.
      - intros [= <-]. eapply states_instant; eauto.
      - intros Hs. destruct Hs; unfold rule_el, table_el, filter_el in *; try clash; rewrite Ek in *;
          match goal with H : [_] = [_] |- _ => injection H as <- end; try clash; reflexivity. }
    rtag "duration"%string c.
    { eexists. split; [reflexivity|]. intros f. split.
      - intros [= <-]. eapply states_duration; eauto.
      - intros Hs. destruct Hs; unfold rule_el, table_el, filter_el in *; try clash; rewrite Ek in *;
          match goal with H : [_] = [_] |- _ => injection H as <- end; try clash; reflexivity. }
    exists None. split; [reflexivity|]. intros f. split; [discriminate|].
    intros Hs. destruct Hs; unfold rule_el, table_el, filter_el in *; try clash; rewrite Ek in *;
      match goal with H : [_] = [_] |- _ => injection H as <- end; clash. }
  rtag "explicitDimension"%string x.
  { unfold parse_explicit_dimension_formula_element.
    destruct (attr x (u "dimension")) as [[|c0 t0]|] eqn:Ea.
    1,3: exists None; split; [reflexivity|]; intros f; split; [discriminate|];
      intros Hs; destruct Hs; unfold rule_el, table_el, filter_el in *; try clash; congruence.
    destruct (qname_total (c0 :: t0) (x_scope x)) as [d Ed]. rewrite Ed. cbn [bind].
    assert (G : (forall c, x_kids x <> [c]) -> forall f, @None formula = Some f <-> states x f).
    { intros Hk f. split; [discriminate|]. intros Hs. destruct Hs; unfold rule_el, table_el, filter_el in *; try clash; exfalso; eapply Hk; eassumption. }
    destruct (x_kids x) as [|c [|c' l]] eqn:Ek.
    1,3: exists None; split; [reflexivity|]; apply G; discriminate.
    clear G.
    rtag "member"%string c.
    { assert (G : (forall c', x_kids c <> [c']) -> forall f, @None formula = Some f <-> states x f).
      { intros Hk f. split; [discriminate|]. intros Hs. destruct Hs; unfold rule_el, table_el, filter_el in *; try clash; exfalso; rewrite Ek in *;
          match goal with H : [_] = [_] |- _ => injection H as <- end; try clash; eapply Hk; eassumption. }
      destruct (x_kids c) as [|g [|g' l]] eqn:Ekc.
      1,3: exists None; split; [reflexivity|]; apply G; discriminate.
      clear G.
      destruct (value_exact (fun v => Some (FDimension d (Some v))) g (Ok None)) as [[-> [N1 N2]]|(v & Hv & ->)];
        [congruence|discriminate| |]; eexists; (split; [reflexivity|]); intros f.
      - split; [discriminate|]. intros Hs. destruct Hs; unfold rule_el, table_el, filter_el in *; try clash; rewrite Ek in *;
          match goal with H : [_] = [_] |- _ => injection H as <- end; try clash. rewrite Ekc in *.
        match goal with H : [_] = [_] |- _ => injection H as <- end.
        match goal with H : value_in _ _ |- _ => apply value_in_tag in H end. exfalso. unfold rule_el, table_el, filter_el in *. tauto.
      - split.
        + intros [= <-]. eapply states_member with (t := c0 :: t0); eauto. discriminate.
        + intros Hs. destruct Hs; unfold rule_el, table_el, filter_el in *; try clash; rewrite Ek in *;
          match goal with H : [_] = [_] |- _ => injection H as <- end; try clash. rewrite Ekc in *.
          match goal with H : [_] = [_] |- _ => injection H as <- end.
          do 2 f_equal; [congruence|]. f_equal. eapply value_in_fun; eauto. }
    rtag "omit"%string c.
    { eexists. split; [reflexivity|]. intros f. split.
      - intros [= <-]. eapply states_omit with (t := c0 :: t0); eauto. discriminate.
      - intros Hs. destruct Hs; unfold rule_el, table_el, filter_el in *; try clash; rewrite Ek in *;
          match goal with H : [_] = [_] |- _ => injection H as <- end; try clash. congruence. }
    exists None. split; [reflexivity|]. intros f. split; [discriminate|].
    intros Hs. destruct Hs; unfold rule_el, table_el, filter_el in *; try clash; rewrite Ek in *;
      match goal with H : [_] = [_] |- _ => injection H as <- end; clash. }
  rtag "entityIdentifier"%string x.
  { unfold parse_entity_identifier_formula_element.
    assert (G : attr x (u "scheme") <> None \/ attr x (u "value") <> None ->
       exists r, Ok (Some (FEntity (attr x (u "scheme")) (attr x (u "value")))) = Ok r /\ (forall f, r = Some f <-> states x f)).
    { intros Hn. eexists. split; [reflexivity|]. intros f. split.
      - intros [= <-]. apply states_entity; assumption.
      - intros Hs. destruct Hs; unfold rule_el, table_el, filter_el in *; try clash. reflexivity. }
    destruct (attr x (u "scheme")) as [sc|] eqn:E1; [apply G; left; discriminate|].
    destruct (attr x (u "value")) as [va|] eqn:E2; [apply G; right; discriminate|].
    exists None. split; [reflexivity|]. intros f. split; [discriminate|].
    intros Hs. destruct Hs; unfold rule_el, table_el, filter_el in *; try clash. tauto. }
  exists None. split; [destruct (tag_is _ x); [reflexivity|destruct (tag_is _ x); reflexivity]|].
  intros f. split; [discriminate|]. intros Hs. destruct Hs; unfold rule_el, table_el, filter_el in *; clash.
Qed.

Lemma states_fun x f g : states x f -> states x g -> f = g.
Proof. destruct (formula_exact x) as (r & _ & H). rewrite <- !H. congruence. Qed.

Lemma formula_some x : exists r, parse_formula_aspect_element x = Ok r /\
  match r with Some f => states x f | None => forall f, ~ states x f end.
Proof.
  destruct (formula_exact x) as (r & E & H). exists r. split; [exact E|]. destruct r as [f|].
  - apply H. reflexivity.
  - intros f Hf. apply H in Hf. discriminate Hf.
Qed.

Lemma add_rules_exact kids : forall s, exists l, add_rules s kids = Ok (RuleSet (rs_tag s) (rs_rules s ++ l)) /\ listed states kids l.
Proof.
  induction kids as [|k kids IH]; intros s; cbn [add_rules].
  - exists []. rewrite app_nil_r. split; [destruct s; reflexivity|constructor].
  - destruct (formula_some k) as (r & -> & Hr). cbn [bind]. destruct r as [f|].
    + destruct (IH (add_rule s f)) as (l & -> & Hl). exists (f :: l). cbn [add_rule rs_tag rs_rules]. rewrite <- app_assoc.
      split; [reflexivity|]. constructor; assumption.
    + destruct (IH s) as (l & -> & Hl). exists l. split; [reflexivity|]. apply listed_silent; assumption.
Qed.

Lemma rule_set_exact x : exists r, parse_rule_set_element x = Ok r /\
  match r with
  | Some s => exists t, rs_tag s = Some t /\ attr x (u "tag") = Some t /\ t <> [] /\ listed states (x_kids x) (rs_rules s)
  | None => forall t, attr x (u "tag") = Some t -> t = []
  end.
Proof.
  unfold parse_rule_set_element. destruct (attr x (u "tag")) as [[|c t]|] eqn:E.
  - eexists. split; [reflexivity|]. cbn. congruence.
  - match goal with |- context [add_rules ?s ?k] => destruct (add_rules_exact k s) as (l & -> & Hl) end. eexists. split; [reflexivity|].
    exists (c :: t). cbn. repeat split; auto. discriminate.
  - eexists. split; [reflexivity|]. cbn. congruence.
Qed.

(** A tagged rule set that the element gives. *)
Definition set_of (x : xml) (s : rule_set) : Prop :=
  exists t, tagged t x /\ rs_tag s = Some t /\ listed states (x_kids x) (rs_rules s).

Lemma rule_set_not_rule x f : table_el "ruleSet" x -> ~ states x f.
Proof. intros H Hs. destruct Hs; unfold rule_el, table_el, filter_el in *; clash. Qed.

Lemma rule_sets_exact kids : forall d sets, exists l m,
  rule_sets_loop d sets kids = Ok (RuleSet (rs_tag d) (rs_rules d ++ l), sets ++ m) /\
  listed states kids l /\ listed set_of kids m.
Proof.
  induction kids as [|k kids IH]; intros d sets; cbn [rule_sets_loop].
  - exists [], []. rewrite !app_nil_r. split; [destruct d; reflexivity|]. split; constructor.
  - ttag "ruleSet"%string k.
    + destruct (rule_set_exact k) as (r & -> & Hr). cbn [bind].
      assert (Hs : forall f, ~ states k f) by (intros f; apply rule_set_not_rule; assumption).
      destruct r as [s|].
      * destruct Hr as (t & Ht & Ha & Hne & Hl). destruct (IH d (sets ++ [s])) as (l & m & -> & H1 & H2).
        exists l, (s :: m). rewrite <- app_assoc. split; [reflexivity|]. split; [apply listed_silent; assumption|].
        constructor; [|assumption]. exists t. unfold tagged. auto.
      * destruct (IH d sets) as (l & m & -> & H1 & H2). exists l, m. split; [reflexivity|].
        split; [apply listed_silent; assumption|]. apply listed_silent; [|assumption].
        intros s (t & (_ & Ha & Hne) & _). auto.
    + assert (Hs : forall s, ~ set_of k s) by (intros s (t & (Ht & _) & _); unfold table_el in *; clash).
      destruct (formula_some k) as (r & -> & Hr). cbn [bind]. destruct r as [f|].
      * destruct (IH (add_rule d f) sets) as (l & m & -> & H1 & H2). exists (f :: l), m. cbn [add_rule rs_tag rs_rules].
        rewrite <- app_assoc. split; [reflexivity|]. split; [constructor; assumption|apply listed_silent; assumption].
      * destruct (IH d sets) as (l & m & -> & H1 & H2). exists l, m. split; [reflexivity|].
        split; apply listed_silent; assumption.
Qed.
