(** What the parser of contexts and facts leaves in the repositories. *)
From Verif Require Import Base Regex PyNum QNameModel QNameProofs ErrBase ErrModel CtxModel CtxSpec CtxProofs.

Local Opaque insert.

(** ** Documents *)

Lemma kid_descendant x k : In k (x_kids x) -> In k (descendants x).
Proof.
  destruct x as [t a sc tx ks]. cbn [x_kids]. intros H. cbn [descendants x_kids].
  induction ks as [|y ks IH]; [destruct H|].
  destruct H as [<-|H]; [left; reflexivity|]. right. apply in_or_app. right. apply IH, H.
Qed.

Lemma descendants_trans x : forall y z, In y (descendants x) -> In z (descendants y) -> In z (descendants x).
Proof.
  revert x. fix REC 1. intros [t a sc tx ks] y z. cbn [descendants x_kids].
  induction ks as [|k ks IH]; [intros []|].
  intros [<-|H] Hz; [right; apply in_or_app; left; exact Hz|].
  apply in_app_iff in H as [H|H]; right; apply in_or_app.
  - left. exact (REC k y z H Hz).
  - right. exact (IH H Hz).
Qed.

Lemma occurs_kid docs x k : occurs docs x -> In k (x_kids x) -> occurs docs k.
Proof.
  intros (i & Hi & Hx) Hk. exists i. split; [exact Hi|].
  eapply descendants_trans; [exact Hx|]. apply kid_descendant, Hk.
Qed.

Lemma occurs_find docs x n k : occurs docs x -> find_kid n x = Some k -> occurs docs k.
Proof. intros H F. apply find_some in F as [F _]. eapply occurs_kid; eauto. Qed.

Lemma find_by_id_some n id i x : find_by_id n id i = Some x ->
  In x (x_kids i) /\ attr x (u "id") = Some id.
Proof.
  intros F. apply find_some in F as [F E]. split; [exact F|].
  apply andb_true_iff in E as [_ E].
  destruct (opt_eqb_spec str_eqb str_eqb_spec (attr x (u "id")) (Some id)); congruence.
Qed.

Lemma occurs_by_id docs n id i x : In i docs -> find_by_id n id i = Some x -> occurs docs x.
Proof.
  intros Hi F. apply find_by_id_some in F as [F _]. exists i. split; [exact Hi|]. apply kid_descendant, F.
Qed.

Lemma cls_eqb_spec a b : reflect (a = b) (cls_eqb a b).
Proof. destruct a, b; constructor; congruence. Qed.

Lemma char_key_eqb_spec a b : reflect (a = b) (char_key_eqb a b).
Proof.
  destruct a as [a1 a2], b as [b1 b2]. unfold char_key_eqb. cbn.
  destruct (str_eqb_spec a1 b1); [|constructor; congruence].
  destruct (cls_eqb_spec a2 b2); constructor; congruence.
Qed.

Lemma tag_contains_has t x b : tag_contains t x = Ok b -> (b = true <-> tag_has t x).
Proof.
  unfold tag_contains, tag_has. destruct (x_tag x) as [g|]; [|discriminate]. intros [= <-].
  split; [intros H; exists g; auto|]. intros (g' & [= <-] & H). exact H.
Qed.

Lemma typed_has is_t (r : repository) q :
  has_typed_qname is_t r q = false -> forall e, get_typed_by_qname is_t r q <> Ok e.
Proof. unfold has_typed_qname, is_ok. intros H e E. rewrite E in H. discriminate. Qed.

Section Parse.
Variable parse_date : str -> res date.
Variable rep : repository.
Variable nillable : element -> bool.
Variable docs : list xml.

Notation concept_shared := (concept_shared rep docs).
Notation unit_shared := (unit_shared docs).
Notation entity_shared := (entity_shared docs).
Notation explicit_shared := (explicit_shared rep docs).
Notation typed_shared := (typed_shared rep docs).
Notation period_shared := (period_shared parse_date).

(** ** The invariant: where a cached characteristic comes from *)

Definition origin (k : str) (c : characteristic) : Prop :=
  match c with
  | ChConcept e => exists y, occurs docs y /\ names_concept rep y k e
  | ChEntity id sch => k = id /\ exists y, occurs docs y /\ writes_entity y id sch
  | ChPeriod p => period_key parse_date k p
  | ChUnit _ _ _ => exists j, In j docs /\ unit_exact j k c
  | ChExplicit d m a => exists mt y, k = a ++ u " " ++ mt /\ occurs docs y /\ writes_explicit rep y a mt d m
  | ChTyped d v a => exists y, k = a ++ u " " ++ v /\ occurs docs y /\ writes_typed rep y a v d
  end.

Definition inv (s : state) : Prop :=
  (forall k cl c, dict_get char_key_eqb (s_chars s) (k, cl) = Some c -> origin k c /\ class_of c = cl) /\
  (forall n a, dict_get str_eqb (s_aspects s) n = Some a -> a = n).

Definition spec {A} (m : M A) (Q : A -> list (error xml) -> Prop) : Prop :=
  forall s a s', inv s -> m s = Ok (a, s') ->
    inv s' /\ s_facts s' = s_facts s /\ exists es, s_errors s' = s_errors s ++ es /\ Q a es.

Lemma inv_empty : inv empty_state.
Proof. split; cbn; intros; discriminate. Qed.

Lemma spec_ret {A} (a : A) (Q : A -> list (error xml) -> Prop) : Q a [] -> spec (ret a) Q.
Proof.
  intros H s b s' Hi [= <- <-]. split; [exact Hi|]. split; [reflexivity|].
  exists []. rewrite app_nil_r. auto.
Qed.

Lemma spec_bind {A B} (m : M A) (f : A -> M B) P Q :
  spec m P -> (forall a es, P a es -> spec (f a) (fun b es' => Q b (es ++ es'))) -> spec (mbind m f) Q.
Proof.
  intros Hm Hf s b s' Hi. unfold mbind. destruct (m s) as [[a s1]|] eqn:E; [|discriminate]. intros E'.
  destruct (Hm _ _ _ Hi E) as (Hi1 & F1 & es & Es & HP).
  destruct (Hf a es HP _ _ _ Hi1 E') as (Hi2 & F2 & es' & Es' & HQ).
  split; [exact Hi2|]. split; [congruence|]. exists (es ++ es').
  rewrite Es', Es, app_assoc. auto.
Qed.

Lemma spec_conseq {A} (m : M A) (P Q : A -> list (error xml) -> Prop) :
  spec m P -> (forall a es, P a es -> Q a es) -> spec m Q.
Proof.
  intros H HPQ s a s' Hi E. destruct (H s a s' Hi E) as (? & ? & es & ? & ?).
  split; [assumption|]. split; [assumption|]. exists es. auto.
Qed.

Lemma spec_lift {A} (r : res A) (Q : A -> list (error xml) -> Prop) : (forall a, r = Ok a -> Q a []) -> spec (lift r) Q.
Proof.
  intros H s a s' Hi. unfold lift. destruct r as [b|]; [|discriminate]. intros [= <- <-].
  split; [exact Hi|]. split; [reflexivity|]. exists []. rewrite app_nil_r. auto.
Qed.

Lemma spec_fail {A} e Q : spec (@fail A e) Q.
Proof. intros s a s' _ H. discriminate H. Qed.

Lemma insert_ok (st : repo xml) code ctx kw st' :
  insert st code ctx kw = Ok st' -> exists e, st' = st ++ [e].
Proof.
  Local Transparent insert. unfold insert. destruct (create code ctx kw) as [e|]; cbn; [|discriminate].
  intros [= <-]. exists e. reflexivity. Local Opaque insert.
Qed.

Lemma spec_report code x kw (Q : unit -> list (error xml) -> Prop) : (forall e, Q tt [e]) -> spec (report code x kw) Q.
Proof.
  intros H s a s' Hi. unfold report.
  destruct (insert (s_errors s) code (Some x) kw) as [st|] eqn:E; [|discriminate].
  intros [= <- <-]. apply insert_ok in E as (e & ->). cbn.
  split; [exact Hi|]. split; [reflexivity|]. exists [e]. auto.
Qed.

(** Reporting and going on. *)
Lemma spec_report_then {A} code x kw (m : M A) Q :
  (forall e, spec m (fun a es => Q a (e :: es))) -> spec (let! _ := report code x kw in m) Q.
Proof.
  intros H. eapply spec_bind; [apply spec_report with (Q := fun _ es => exists e, es = [e]); eauto|].
  intros _ es (e & ->). apply H.
Qed.

Lemma spec_report_ret {A} code x kw (a : A) (Q : A -> list (error xml) -> Prop) :
  (forall es, es <> [] -> Q a es) -> spec (let! _ := report code x kw in ret a) Q.
Proof. intros H. apply spec_report_then. intros e. apply spec_ret. apply H. discriminate. Qed.

Lemma spec_lift_then {A B} (r : res A) (f : A -> M B) Q :
  (forall a, r = Ok a -> spec (f a) Q) -> spec (let! x := lift r in f x) Q.
Proof.
  intros H. eapply spec_bind; [apply spec_lift with (Q := fun a es => r = Ok a /\ es = []); auto|].
  intros a es [E ->]. apply H, E.
Qed.

Lemma spec_has {B} i k (f : bool -> M B) Q :
  (forall b, spec (f b) Q) -> spec (let! b := char_has i k in f b) Q.
Proof.
  intros H. eapply spec_bind with (P := fun _ es => es = []).
  - intros s a s' Hi [= <- <-]. split; [exact Hi|]. split; [reflexivity|]. exists [].
    rewrite app_nil_r. auto.
  - intros a es ->. apply H.
Qed.

Lemma spec_char_get i k (Q : characteristic -> list (error xml) -> Prop) :
  (forall c, origin i c -> class_of c = k -> Q c []) -> spec (char_get i k) Q.
Proof.
  intros H s a s' Hi. unfold char_get.
  destruct (dict_get char_key_eqb (s_chars s) (i, k)) as [c|] eqn:E; [|discriminate].
  destruct (cls_eqb (class_of c) k); [|discriminate]. intros [= <- <-].
  destruct (proj1 Hi _ _ _ E) as [Ho Hc].
  split; [exact Hi|]. split; [reflexivity|]. exists []. rewrite app_nil_r. auto.
Qed.

Lemma spec_char_get_then {B} i k (f : characteristic -> M B) Q :
  (forall c, origin i c -> class_of c = k -> spec (f c) Q) -> spec (let! c := char_get i k in f c) Q.
Proof.
  intros H. eapply spec_bind; [apply spec_char_get with
    (Q := fun c es => (origin i c /\ class_of c = k) /\ es = []); auto|].
  intros c es [[H1 H2] ->]. apply H; assumption.
Qed.

Lemma spec_char_upsert i c (Q : unit -> list (error xml) -> Prop) :
  origin i c -> Q tt [] -> spec (char_upsert i c) Q.
Proof.
  intros Ho HQ s a s' Hi [= <- <-]. split; [|split; [reflexivity|exists []; rewrite app_nil_r; auto]].
  split; [|exact (proj2 Hi)]. cbn. intros k cl c'.
  destruct (char_key_eqb_spec (i, class_of c) (k, cl)) as [E|E].
  - rewrite <- E, (dict_get_set_same _ char_key_eqb_spec). intros [= <-].
    injection E as -> E. auto.
  - rewrite (dict_get_set_other _ char_key_eqb_spec) by exact E. apply Hi.
Qed.

Lemma spec_aspect_upsert n (Q : unit -> list (error xml) -> Prop) : Q tt [] -> spec (aspect_upsert n) Q.
Proof.
  intros HQ s a s' Hi [= <- <-]. split; [|split; [reflexivity|exists []; rewrite app_nil_r; auto]].
  split; [exact (proj1 Hi)|]. cbn. intros k c'.
  destruct (str_eqb_spec n k) as [->|E].
  - rewrite (dict_get_set_same _ str_eqb_spec). congruence.
  - rewrite (dict_get_set_other _ str_eqb_spec) by exact E. apply Hi.
Qed.

Lemma spec_aspect_has {B} n (f : bool -> M B) Q :
  (forall b, spec (f b) Q) -> spec (let! b := aspect_has n in f b) Q.
Proof.
  intros H. eapply spec_bind with (P := fun _ es => es = []).
  - intros s a s' Hi [= <- <-]. split; [exact Hi|]. split; [reflexivity|]. exists [].
    rewrite app_nil_r. auto.
  - intros a es ->. apply H.
Qed.

Lemma spec_aspect_get {B} n (f : str -> M B) Q :
  spec (f n) Q -> spec (let! a := aspect_get n in f a) Q.
Proof.
  intros H. eapply spec_bind with (P := fun a es => a = n /\ es = []).
  - intros s a s' Hi. unfold aspect_get.
    destruct (dict_get str_eqb (s_aspects s) n) as [b|] eqn:E; [|discriminate]. intros [= <- <-].
    split; [exact Hi|]. split; [reflexivity|]. exists []. rewrite app_nil_r.
    split; [reflexivity|]. split; [apply (proj2 Hi), E|reflexivity].
  - intros a es [-> ->]. exact H.
Qed.

(** A step without a result and without errors. *)
Lemma spec_skip {B} (m : M unit) (f : M B) Q :
  spec m (fun _ es => es = []) -> spec f Q -> spec (let! _ := m in f) Q.
Proof. intros Hm Hf. eapply spec_bind; [exact Hm|]. intros [] es ->. exact Hf. Qed.

(** A step that may report. *)
Lemma spec_may {B} (m : M unit) (f : M B) (Q : B -> list (error xml) -> Prop) :
  spec m (fun _ _ => True) -> (forall b es es', Q b es -> Q b (es' ++ es)) -> spec f Q ->
  spec (let! _ := m in f) Q.
Proof.
  intros Hm HQ Hf. eapply spec_bind; [exact Hm|]. intros [] es _.
  eapply spec_conseq; [exact Hf|]. intros b es' H. apply HQ, H.
Qed.

(** A result, or errors. *)
Definition or_errors {A} (P : option A -> Prop) (r : option A) (es : list (error xml)) : Prop :=
  P r /\ (r = None -> es <> []).

Lemma or_errors_app {A} (P : option A -> Prop) r es es' :
  or_errors P r es -> or_errors P r (es' ++ es).
Proof.
  intros [H1 H2]. split; [exact H1|]. intros H E. apply app_eq_nil in E as [_ E]. exact (H2 H E).
Qed.

Lemma or_errors_some {A} (P : option A -> Prop) a es : P (Some a) -> or_errors P (Some a) es.
Proof. intros H. split; [exact H|discriminate]. Qed.

Lemma or_errors_none {A} (P : option A -> Prop) es : P None -> es <> [] -> or_errors P None es.
Proof. intros H H'. split; [exact H|intros _; exact H']. Qed.

(** ** Characteristics *)

Lemma parse_entity_spec x : occurs docs x ->
  spec (parse_entity x) (fun r es => entity_shared x r /\
    (r = None -> es = [] -> exists i, find_kid (u "identifier") x = Some i /\ x_text i = None)).
Proof.
  intros Hx. unfold parse_entity. destruct (find_kid (u "identifier") x) as [i|] eqn:Ei.
  2:{ apply spec_report_ret. intros es He. split; [|congruence].
      intros id sch (i & E & _). congruence. }
  destruct (attr i (u "scheme")) as [sch|] eqn:Es.
  2:{ apply spec_report_ret. intros es He. split; [|congruence].
      intros id sch (j & E & _ & E'). congruence. }
  destruct (x_text i) as [id|] eqn:Et.
  2:{ apply spec_ret. split; [|intros _ _; exists i; auto].
      intros id s' (j & E & E' & _). congruence. }
  assert (Hw : writes_entity x id sch) by (exists i; auto).
  apply spec_has. intros [|].
  - apply spec_char_get_then. intros c Ho Hc. apply spec_ret. split; [|discriminate].
    destruct c; try discriminate. destruct Ho as [-> (y & Hy & Hw')].
    exists id0, sch, scheme, y. auto.
  - eapply spec_skip; [apply spec_char_upsert; [|reflexivity]|].
    + split; [reflexivity|]. exists x. auto.
    + apply spec_ret. split; [|discriminate]. exists id, sch, sch, x. auto.
Qed.

Lemma parse_explicit_spec x : occurs docs x ->
  spec (parse_explicit rep x) (or_errors (explicit_shared x)).
Proof.
  intros Hx. unfold parse_explicit. apply spec_lift_then. intros dt Ed.
  unfold get_str_attribute in Ed. destruct (attr x (u "dimension")) as [dt'|] eqn:Ea; [|discriminate].
  injection Ed as ->.
  apply spec_has. intros b.
  eapply spec_skip; [destruct b; [apply spec_ret; reflexivity|apply spec_aspect_upsert; reflexivity]|].
  apply spec_aspect_get. apply spec_lift_then. intros dq Edq.
  destruct (has_typed_qname is_dimension rep dq) eqn:Eh; cbn [negb].
  2:{ apply spec_report_ret. intros es He. apply or_errors_none; [|exact He].
      intros dt' mt d m (E & _ & _ & (q & Eq & Er) & _). assert (dt' = dt) by congruence. subst.
      assert (q = dq) by congruence. subst. exact (typed_has _ _ _ Eh _ Er). }
  apply spec_lift_then. intros dim Edim.
  destruct (x_text x) as [[|mc mt]|] eqn:Et.
  1,3: apply spec_report_ret; intros es He; apply or_errors_none; [|exact He];
       intros dt' mt d m (_ & E & Hn & _); congruence.
  apply spec_lift_then. intros mq Emq.
  destruct (has_typed_qname is_member rep mq) eqn:Ehm; cbn [negb].
  2:{ apply spec_report_ret. intros es He. apply or_errors_none; [|exact He].
      intros dt' mt' d m (_ & E & _ & _ & (q & Eq & Er)). assert (mt' = mc :: mt) by congruence. subst.
      assert (q = mq) by congruence. subst. exact (typed_has _ _ _ Ehm _ Er). }
  apply spec_lift_then. intros mem Emem. apply spec_has. intros b'.
  assert (Hw : writes_explicit rep x dt (mc :: mt) dim mem).
  { split; [exact Ea|]. split; [exact Et|]. split; [discriminate|]. split; eauto. }
  eapply spec_skip.
  { destruct b'; [apply spec_ret; reflexivity|]. apply spec_char_upsert; [|reflexivity].
    exists (mc :: mt), x. auto. }
  apply spec_char_get_then. intros c Ho Hc. apply spec_ret. apply or_errors_some.
  destruct c; try discriminate. destruct Ho as (mt' & y & E & Hy & Hw').
  exists dt, (mc :: mt), dim, mem, aspect, mt', dim0, mem0, y. auto.
Qed.

Lemma parse_typed_spec x : occurs docs x ->
  spec (parse_typed rep x) (or_errors (typed_shared x)).
Proof.
  intros Hx. unfold parse_typed. apply spec_lift_then. intros dt Ed.
  unfold get_str_attribute in Ed. destruct (attr x (u "dimension")) as [dt'|] eqn:Ea; [|discriminate].
  injection Ed as ->.
  apply spec_aspect_has. intros b.
  eapply spec_skip; [destruct b; [apply spec_ret; reflexivity|apply spec_aspect_upsert; reflexivity]|].
  apply spec_aspect_get. apply spec_lift_then. intros dq Edq.
  eapply spec_may; [destruct (has_typed_qname is_dimension rep dq); [apply spec_ret|apply spec_report]; auto
                   |intros r es es'; apply or_errors_app|].
  apply spec_lift_then. intros dim Edim.
  eapply spec_may; [destruct (Nat.ltb _ _); [apply spec_report|apply spec_ret]; auto
                   |intros r es es'; apply or_errors_app|].
  destruct (x_kids x) as [|k r] eqn:Ek.
  { apply spec_report_ret. intros es He. apply or_errors_none; [|exact He].
    intros dt' v d (_ & (k & r & E & _) & _). congruence. }
  destruct (x_text k) as [v|] eqn:Et.
  2:{ apply spec_report_ret. intros es He. apply or_errors_none; [|exact He].
      intros dt' v d (_ & (k' & r' & E & E') & _). congruence. }
  apply spec_has. intros b'.
  assert (Hw : writes_typed rep x dt v dim).
  { split; [exact Ea|]. split; eauto. }
  eapply spec_skip.
  { destruct b'; [apply spec_ret; reflexivity|]. apply spec_char_upsert; [|reflexivity].
    exists x. auto. }
  apply spec_char_get_then. intros c Ho Hc. apply spec_ret. apply or_errors_some.
  destruct c; try discriminate. destruct Ho as (y & E & Hy & Hw').
  exists dt, v, dim, aspect, value, dim0, y. auto.
Qed.

(** ** Periods *)

Lemma is_date_true t : is_date parse_date t = Ok true ->
  exists s d, t = Some s /\ s <> [] /\ parse_date s = Ok d.
Proof.
  unfold is_date. destruct t as [[|c s]|]; try discriminate.
  destruct (parse_date (c :: s)) as [d|[]] eqn:E; try discriminate.
  intros _. exists (c :: s), d. split; [reflexivity|]. split; [discriminate|exact E].
Qed.

Lemma is_date_false (s : str) d : s <> [] -> parse_date s = Ok d -> is_date parse_date (Some s) = Ok true.
Proof. intros Hn E. unfold is_date. destruct s; [congruence|]. rewrite E. reflexivity. Qed.

Lemma get_context_date_spec x :
  spec (get_context_date parse_date x) (fun r es =>
    match r with
    | Some t => exists d, x_text x = Some t /\ t <> [] /\ parse_date t = Ok d
    | None => es <> [] /\ forall t d, x_text x = Some t -> t <> [] -> parse_date t <> Ok d
    end).
Proof.
  unfold get_context_date. apply spec_lift_then. intros [|] E.
  - apply spec_ret. apply is_date_true in E as (s & d & -> & Hn & Ed). exists d. auto.
  - apply spec_report_ret. intros es He. split; [exact He|]. intros t d Et Hn Ed.
    rewrite Et, (is_date_false t d Hn Ed) in E. discriminate.
Qed.

Lemma make_instant_ok t p : make_instant parse_date t = Ok p ->
  exists d, p = Instant d /\ parse_date t = Ok d /\ t <> [].
Proof.
  unfold make_instant. destruct (is_date parse_date (Some t)) as [[|]|] eqn:E; cbn; try discriminate.
  apply is_date_true in E as (s & d & [= <-] & Hn & Ed). rewrite Ed. cbn. intros [= <-].
  exists d. auto.
Qed.

Lemma make_duration_ok s e p : make_duration parse_date s e = Ok p ->
  exists ds de, p = Duration ds de /\ parse_date s = Ok ds /\ parse_date e = Ok de /\
                s <> [] /\ e <> [] /\ date_ltb de ds = false.
Proof.
  unfold make_duration. destruct (is_date parse_date (Some s)) as [[|]|] eqn:E; cbn [bind negb]; try discriminate.
  apply is_date_true in E as (? & ds & [= <-] & Hn & Ed).
  destruct (is_date parse_date (Some e)) as [[|]|] eqn:E'; cbn [bind negb]; try discriminate.
  apply is_date_true in E' as (? & de & [= <-] & Hn' & Ed'). rewrite Ed, Ed'. cbn [bind].
  destruct (date_ltb de ds) eqn:El; [discriminate|]. intros [= <-].
  exists ds, de. auto 10.
Qed.

Lemma make_duration_bad (s e : str) ds de :
  parse_date s = Ok ds -> parse_date e = Ok de -> s <> [] -> e <> [] ->
  make_duration parse_date s e = if date_ltb de ds then Raise ValueError else Ok (Duration ds de).
Proof.
  intros E E' Hn Hn'. unfold make_duration.
  rewrite (is_date_false s ds Hn E), (is_date_false e de Hn' E'). cbn [bind negb]. rewrite E, E'. reflexivity.
Qed.

Lemma parse_period_spec x :
  spec (parse_period parse_date x) (or_errors (period_shared x)).
Proof.
  unfold parse_period. destruct (find_kid (u "instant") x) as [i|] eqn:Ei.
  { unfold parse_instant_period. eapply spec_bind; [apply get_context_date_spec|].
    intros [t|] es.
    - intros (d & Et & Hn & Ed).
      assert (Hk : keys_period parse_date x t) by (eapply kp_instant; eauto).
      apply spec_has. intros [|].
      + apply spec_char_get_then. intros c Ho Hc. apply spec_ret. apply or_errors_some.
        destruct c; try discriminate. exists t, p. auto.
      + apply spec_lift_then. intros p Ep. apply make_instant_ok in Ep as (d' & -> & Ed' & _).
        assert (Hp : period_key parse_date t (Instant d')) by (constructor; assumption).
        eapply spec_skip; [apply spec_char_upsert; [exact Hp|reflexivity]|].
        apply spec_ret. apply or_errors_some. exists t, (Instant d'). auto.
    - intros [He Hno]. apply spec_ret. rewrite app_nil_r. apply or_errors_none; [|exact He].
      intros p Hp. inversion Hp; subst; [|congruence].
      assert (i0 = i) by congruence. subst. eapply Hno; eauto. }
  destruct (find_kid (u "startDate") x) as [xs|] eqn:Es.
  2:{ apply spec_report_ret. intros es He. apply or_errors_none; [|exact He].
      intros p Hp; inversion Hp; subst; congruence. }
  destruct (find_kid (u "endDate") x) as [xe|] eqn:Ee.
  2:{ apply spec_report_ret. intros es He. apply or_errors_none; [|exact He].
      intros p Hp; inversion Hp; subst; congruence. }
  unfold parse_duration_period.
  eapply spec_bind; [apply get_context_date_spec|]. intros rs es1 H1.
  eapply spec_bind; [apply get_context_date_spec|]. intros re es2 H2.
  destruct rs as [s|].
  2:{ destruct H1 as [He Hno]. apply spec_ret. apply or_errors_none.
      - intros p Hp; inversion Hp; subst; [congruence|].
        match goal with H : find_kid (u "startDate") x = Some ?i |- _ => assert (i = xs) by congruence end.
        subst. eapply Hno; eauto.
      - destruct es1; [congruence|discriminate]. }
  destruct re as [e|].
  2:{ destruct H2 as [He Hno]. apply spec_ret. apply or_errors_none.
      - intros p Hp; inversion Hp; subst; [congruence|].
        match goal with H : find_kid (u "endDate") x = Some ?i |- _ => assert (i = xe) by congruence end.
        subst. eapply Hno; eauto.
      - destruct es2; [congruence|]. destruct es1; discriminate. }
  destruct H1 as (ds & Ets & Hns & Eds), H2 as (de & Ete & Hne & Ede).
  assert (Hk : keys_period parse_date x (u "period " ++ s ++ u " " ++ e))
    by (eapply kp_duration; eauto).
  assert (Hpre : forall (r : option characteristic) es, or_errors (period_shared x) r es ->
                 or_errors (period_shared x) r (es1 ++ es2 ++ es)).
  { intros r es H. apply or_errors_app, or_errors_app, H. }
  apply spec_has. intros [|].
  - apply spec_char_get_then. intros c Ho Hc. apply spec_ret. apply Hpre, or_errors_some.
    destruct c; try discriminate. eexists _, p. split; [exact Hk|]. split; [exact Ho|reflexivity].
  - rewrite (make_duration_bad _ _ _ _ Eds Ede Hns Hne).
    destruct (date_ltb de ds) eqn:El.
    + apply spec_report_ret. intros es He. apply Hpre, or_errors_none; [|exact He].
      intros p Hp; inversion Hp; subst; [congruence|].
      assert (i = xs) by congruence. assert (j = xe) by congruence. subst. congruence.
    + assert (Hp : period_key parse_date (u "period " ++ s ++ u " " ++ e) (Duration ds de))
        by (eapply pk_duration; eauto).
      eapply spec_skip; [apply spec_char_upsert; [exact Hp|reflexivity]|].
      apply spec_ret. apply Hpre, or_errors_some.
      eexists _, (Duration ds de). split; [exact Hk|]. split; [exact Hp|reflexivity].
Qed.

(** ** Units *)

Lemma parse_measure_spec x :
  spec (parse_measure x) (or_errors (fun r => match r with Some q => reads_measure x q | None => True end)).
Proof.
  unfold parse_measure. destruct (x_text x) as [t|] eqn:Et.
  - apply spec_lift_then. intros q Eq. apply spec_ret. apply or_errors_some. exists t. auto.
  - apply spec_report_ret. intros es He. apply or_errors_none; auto.
Qed.

Lemma parse_divide_spec un uid l : forall nums dens,
  spec (parse_divide un uid l nums dens)
    (or_errors (fun r => match r with
                         | Some (ns, ds) => exists ns' ds', ns = nums ++ ns' /\ ds = dens ++ ds' /\
                                                             reads_divide l ns' ds'
                         | None => True end)).
Proof.
  induction l as [|nd l IH]; intros nums dens; cbn [parse_divide].
  - apply spec_ret. apply or_errors_some. exists [], []. rewrite !app_nil_r.
    split; [reflexivity|]. split; [reflexivity|constructor].
  - apply spec_lift_then. intros bn En. apply spec_lift_then. intros bd Ed.
    apply tag_contains_has in En, Ed.
    eapply spec_may; [destruct (negb bn && negb bd); [apply spec_report|apply spec_ret]; auto
                     |intros r es es'; apply or_errors_app|].
    destruct (x_kids nd) as [|m r] eqn:Ek; [apply spec_fail|].
    eapply spec_bind; [apply parse_measure_spec|]. intros [q|] es [Hq He].
    2:{ apply spec_ret. rewrite app_nil_r. apply or_errors_none; auto. }
    destruct bn.
    { eapply spec_conseq; [apply IH|]. intros [[ns ds]|] es' H; apply or_errors_app; [|exact H].
      destruct H as [(ns' & ds' & -> & -> & H) _]. apply or_errors_some.
      exists (q :: ns'), ds'. rewrite <- app_assoc. split; [reflexivity|]. split; [reflexivity|].
      eapply rd_num; eauto. apply En; reflexivity. }
    assert (Hn : ~ tag_has (u "unitNumerator") nd) by (rewrite <- En; discriminate).
    destruct bd.
    { eapply spec_conseq; [apply IH|]. intros [[ns ds]|] es' H; apply or_errors_app; [|exact H].
      destruct H as [(ns' & ds' & -> & -> & H) _]. apply or_errors_some.
      exists ns', (q :: ds'). rewrite <- app_assoc. split; [reflexivity|]. split; [reflexivity|].
      eapply rd_den; eauto. apply Ed; reflexivity. }
    assert (Hd : ~ tag_has (u "unitDenominator") nd) by (rewrite <- Ed; discriminate).
    eapply spec_conseq; [apply IH|]. intros [[ns ds]|] es' H; apply or_errors_app; [|exact H].
    destruct H as [(ns' & ds' & -> & -> & H) _]. apply or_errors_some.
    exists ns', ds'. split; [reflexivity|]. split; [reflexivity|]. apply rd_other; auto.
Qed.

Lemma parse_unit_spec x id : attr x (u "id") = Some id ->
  spec (parse_unit x) (or_errors (fun r => match r with
     | Some c => exists ns ds, reads_unit x ns ds /\ c = ChUnit id ns ds
     | None => True end)).
Proof.
  intros Hid. unfold parse_unit. apply spec_lift_then. intros id' E.
  unfold get_str_attribute in E. rewrite Hid in E. injection E as <-.
  apply spec_has. intros b.
  eapply spec_may; [destruct b; [apply spec_report|apply spec_ret]; auto
                   |intros r es es'; apply or_errors_app|].
  assert (Hcount : length (x_kids x) <> 1 -> forall kw,
    spec (let! _ := report "XML_UNIT_ELEMENT_WITHOUT_ONE_CHILD" x kw in ret (Some (ChUnit id [] [])))
      (or_errors (fun r => match r with
         | Some c => exists ns ds, reads_unit x ns ds /\ c = ChUnit id ns ds | None => True end))).
  { intros Hl kw. apply spec_report_ret. intros es _. apply or_errors_some.
    exists [], []. split; [|reflexivity]. apply ru_count, Hl. }
  destruct (x_kids x) as [|child [|k2 r]] eqn:Ek; [apply Hcount; cbn; discriminate| |apply Hcount; cbn; discriminate].
  clear Hcount.
  apply spec_lift_then. intros bm Em. apply tag_contains_has in Em.
  destruct bm.
  { eapply spec_bind; [apply parse_measure_spec|]. intros [q|] es [Hq He]; apply spec_ret; rewrite app_nil_r.
    - apply or_errors_some. exists [q], []. split; [|reflexivity].
      eapply ru_measure; eauto. apply Em; reflexivity.
    - apply or_errors_none; auto. }
  assert (Hm : ~ tag_has (u "measure") child) by (rewrite <- Em; discriminate).
  apply spec_lift_then. intros bd Ed. apply tag_contains_has in Ed.
  destruct bd.
  2:{ assert (Hd : ~ tag_has (u "divide") child) by (rewrite <- Ed; discriminate).
      apply spec_report_ret. intros es _. apply or_errors_some. exists [], []. split; [|reflexivity].
      eapply ru_unknown; eauto. }
  eapply spec_may; [destruct (negb _); [apply spec_report|apply spec_ret]; auto
                   |intros r es es'; apply or_errors_app|].
  eapply spec_bind; [apply parse_divide_spec|]. intros [[ns ds]|] es [Hq He].
  2:{ apply spec_ret. rewrite app_nil_r. apply or_errors_none; auto. }
  destruct Hq as (ns' & ds' & -> & -> & Hr). cbn [app] in *.
  destruct (x_kids child) as [|a [|b' l]] eqn:Ec; [apply spec_fail|apply spec_fail|].
  eapply spec_may; [destruct (opt_eqb _ _ _); [apply spec_report|apply spec_ret]; auto
                   |intros r es' es''; rewrite app_assoc; intros H|].
  { split; [exact (proj1 H)|]. intros Hr' E. apply app_eq_nil in E as [E1 E2].
    apply app_eq_nil in E1 as [E1 _]. apply (proj2 H Hr'). rewrite E1, E2. reflexivity. }
  apply spec_ret. apply or_errors_some. exists ns', ds'. split; [|reflexivity].
  eapply ru_divide; eauto; [apply Ed; reflexivity|]. rewrite Ec. exact Hr.
Qed.

(** ** Contexts *)

Lemma fold_add_app xs ys c :
  fold_left add_characteristic (xs ++ ys) c =
  fold_left add_characteristic ys (fold_left add_characteristic xs c).
Proof. apply fold_left_app. Qed.

Lemma add_optional_fold c r : add_optional c r = fold_left add_characteristic (opt_list r) c.
Proof. destruct r; reflexivity. Qed.

Lemma parse_dimensions_spec l : forall c,
  (forall x, In x l -> occurs docs x) ->
  spec (parse_dimensions rep l c) (fun c' es =>
    exists rs, Forall2 (dimension_is explicit_shared typed_shared) l rs /\
               c' = fold_left add_characteristic (somes rs) c).
Proof.
  induction l as [|x l IH]; intros c Ho; cbn [parse_dimensions].
  - apply spec_ret. exists []. split; [constructor|reflexivity].
  - assert (Hx : occurs docs x) by (apply Ho; left; reflexivity).
    assert (Hl : forall y, In y l -> occurs docs y) by (intros y Hy; apply Ho; right; exact Hy).
    apply spec_lift_then. intros be Ee. apply tag_contains_has in Ee. destruct be.
    { eapply spec_bind; [apply parse_explicit_spec, Hx|]. intros r es [Hr _].
      eapply spec_conseq; [apply IH, Hl|]. intros c' es' (rs & Hrs & ->).
      exists (r :: rs). split.
      - constructor; [|exact Hrs]. left. split; [apply Ee; reflexivity|exact Hr].
      - rewrite add_optional_fold. cbn [somes flat_map]. rewrite fold_left_app. destruct r; reflexivity. }
    assert (Hn : ~ tag_has (u "explicitMember") x) by (rewrite <- Ee; discriminate).
    apply spec_lift_then. intros bt Et. apply tag_contains_has in Et. destruct bt.
    { eapply spec_bind; [apply parse_typed_spec, Hx|]. intros r es [Hr _].
      eapply spec_conseq; [apply IH, Hl|]. intros c' es' (rs & Hrs & ->).
      exists (r :: rs). split.
      - constructor; [|exact Hrs]. right. split; [exact Hn|]. split; [apply Et; reflexivity|exact Hr].
      - rewrite add_optional_fold. cbn [somes flat_map]. rewrite fold_left_app. destruct r; reflexivity. }
    (* the error of this branch cannot be recorded *)
    intros s a s' Hi E. exfalso. revert E. unfold mbind, report.
    assert (Hbad : insert (s_errors s) "INVALID_DIMENSION_TYPE"%string (Some x) [] = Raise ValueError).
    { Local Transparent insert. unfold insert.
      assert (Hc : create "INVALID_DIMENSION_TYPE"%string (Some x) [] = Raise ValueError)
        by (vm_compute; reflexivity).
      rewrite Hc. reflexivity. Local Opaque insert. }
    rewrite Hbad. discriminate.
Qed.

Lemma parse_context_spec x chars : occurs docs x ->
  spec (parse_context parse_date rep x chars)
    (or_errors (fun r => match r with
       | Some c => context_as entity_shared period_shared explicit_shared typed_shared x chars c
       | None => True end)).
Proof.
  intros Hx. unfold parse_context. apply spec_lift_then. intros id Eid.
  unfold get_str_attribute in Eid. destruct (attr x (u "id")) as [id'|] eqn:Ei; [|discriminate].
  injection Eid as ->.
  destruct (find_kid (u "period") x) as [xp|] eqn:Ep.
  2:{ apply spec_report_ret. intros es He. apply or_errors_none; auto. }
  destruct (find_kid (u "entity") x) as [xe|] eqn:Een.
  2:{ apply spec_report_ret. intros es He. apply or_errors_none; auto. }
  assert (Hxe : occurs docs xe) by (eapply occurs_find; eauto).
  eapply spec_bind; [apply parse_period_spec|]. intros p es1 [Hp _].
  eapply spec_bind; [apply parse_entity_spec, Hxe|]. intros en es2 [He _].
  rewrite !add_optional_fold. rewrite <- !fold_left_app.
  destruct (find_kid (u "segment") xe) as [seg|] eqn:Es.
  - assert (Hs : occurs docs seg) by (eapply occurs_find; eauto).
    eapply spec_bind.
    { apply parse_dimensions_spec. intros y Hy. eapply occurs_kid; eauto. }
    intros c es3 (rs & Hrs & ->). apply spec_ret. apply or_errors_some.
    exists id, xp, xe, p, en, (somes rs). split; [exact Ei|]. split; [exact Ep|]. split; [exact Een|].
    split; [exact Hp|]. split; [exact He|]. split.
    + unfold dimensions_are. rewrite Es. eauto.
    + rewrite <- fold_left_app, <- !app_assoc. reflexivity.
  - apply spec_ret. apply or_errors_some.
    exists id, xp, xe, p, en, []. split; [exact Ei|]. split; [exact Ep|]. split; [exact Een|].
    split; [exact Hp|]. split; [exact He|]. split.
    + unfold dimensions_are. rewrite Es. reflexivity.
    + rewrite app_nil_r. reflexivity.
Qed.

(** ** Facts *)

Lemma concept_spec x : occurs docs x -> (exists e', concept_exact rep x e') ->
  spec (concept_characteristic rep x (str_opt (x_tag x))) (fun c es =>
    exists e, c = ChConcept e /\ concept_shared x e).
Proof.
  intros Hx Hown. unfold concept_characteristic. apply spec_has. intros b.
  eapply spec_skip.
  { destruct b; [apply spec_ret; reflexivity|].
    apply spec_lift_then. intros q Eq. apply spec_lift_then. intros e Ee.
    apply spec_char_upsert; [|reflexivity]. exists x. split; [exact Hx|]. split; [reflexivity|].
    exists q. auto. }
  apply spec_char_get. intros c Ho Hc. destruct c; try discriminate.
  exists c. split; [reflexivity|]. split; [exact Hown|]. exact Ho.
Qed.

Lemma fact_unit_spec i x : In i docs ->
  spec (fact_unit i x) (or_errors (fun r => match r with
    | Some us => units_are unit_shared i x us | None => True end)).
Proof.
  intros Hi. unfold fact_unit, units_are. destruct (attr x (u "unitRef")) as [[|c id]|].
  1,3: apply spec_ret; apply or_errors_some; reflexivity.
  destruct (find_by_id (u "unit") (c :: id) i) as [xu|] eqn:Ef.
  2:{ apply spec_report_ret. intros es He. apply or_errors_none; auto. }
  apply spec_has. intros b.
  eapply spec_bind with (P := fun b es => b = false -> es <> []).
  { destruct b; [apply spec_ret; discriminate|].
    destruct (find_by_id_some _ _ _ _ Ef) as [_ Hid].
    eapply spec_bind; [apply parse_unit_spec, Hid|]. intros [ch|] es [H He].
    - eapply spec_skip.
      + apply spec_char_upsert; [|reflexivity]. destruct H as (ns & ds & H & ->).
        exists i. split; [exact Hi|]. exists xu, ns, ds. auto.
      + apply spec_ret. discriminate.
    - apply spec_ret. rewrite app_nil_r. auto. }
  intros [|] es He.
  - apply spec_char_get_then. intros ch Ho Hc. apply spec_ret. apply or_errors_some.
    exists ch. split; [reflexivity|]. unfold CtxSpec.unit_shared. rewrite Ef. split; [discriminate|].
    destruct ch; try discriminate. exact Ho.
  - apply spec_ret. rewrite app_nil_r. apply or_errors_none; auto.
Qed.

Notation fact_shared := (fact_as concept_shared unit_shared entity_shared period_shared
                                 explicit_shared typed_shared).

Lemma first_concept e us ys id :
  get_characteristic (fold_left add_characteristic ((ChConcept e :: us) ++ ys) (new_context id)) a_concept
  = Some (ChConcept e).
Proof. rewrite fold_get by apply new_ok. reflexivity. Qed.

(** *** Units that are not reported *)

Lemma parse_divide_form un uid l : forall nums dens,
  spec (parse_divide un uid l nums dens) (fun r es => es = [] ->
    forall c, In c l -> r <> None -> tag_has (u "unitNumerator") c \/ tag_has (u "unitDenominator") c).
Proof.
  induction l as [|nd l IH]; intros nums dens; cbn [parse_divide].
  - apply spec_ret. intros _ c [].
  - apply spec_lift_then. intros bn En. apply spec_lift_then. intros bd Ed.
    apply tag_contains_has in En, Ed.
    eapply spec_bind with (P := fun _ es => es = [] -> bn = true \/ bd = true).
    { destruct bn, bd; cbn [negb andb]; try (apply spec_ret; auto; fail).
      apply spec_report. discriminate. }
    intros [] es1 H1.
    destruct (x_kids nd) as [|m r]; [apply spec_fail|].
    eapply spec_bind with (P := fun _ _ => True); [eapply spec_conseq; [apply parse_measure_spec|auto]|].
    intros [q|] es2 _; [|apply spec_ret; intros _ c _ H; congruence].
    assert (Hhd : es1 = [] -> tag_has (u "unitNumerator") nd \/ tag_has (u "unitDenominator") nd).
    { intros E. destruct (H1 E) as [-> | ->]; [left; apply En|right; apply Ed]; reflexivity. }
    assert (Hall : forall nn dd, spec (parse_divide un uid l nn dd) (fun r0 es => es1 ++ es2 ++ es = [] ->
      forall c, In c (nd :: l) -> r0 <> None ->
      tag_has (u "unitNumerator") c \/ tag_has (u "unitDenominator") c)).
    { intros nn dd. eapply spec_conseq; [apply IH|]. intros r0 es H E c Hc Hr.
      apply app_eq_nil in E as [E1 E]. apply app_eq_nil in E as [_ E].
      destruct Hc as [<-|Hc]; [apply Hhd, E1|apply (H E c Hc Hr)]. }
    destruct bn; [apply Hall|]. destruct bd; apply Hall.
Qed.

Lemma parse_unit_form x :
  spec (parse_unit x) (fun r es => r <> None -> es = [] -> unit_form x).
Proof.
  unfold parse_unit. apply spec_lift_then. intros id _. apply spec_has. intros b.
  eapply spec_may; [destruct b; [apply spec_report|apply spec_ret]; auto| |].
  { intros r es es' H Hr E. apply app_eq_nil in E as [_ E]. exact (H Hr E). }
  destruct (x_kids x) as [|child [|k2 r]] eqn:Ek;
    [apply spec_report_ret; congruence| |apply spec_report_ret; congruence].
  apply spec_lift_then. intros bm Em. apply tag_contains_has in Em.
  destruct bm.
  { eapply spec_bind with (P := fun _ _ => True); [eapply spec_conseq; [apply parse_measure_spec|auto]|].
    assert (H : unit_form x) by (left; exists child; split; [exact Ek|apply Em; reflexivity]).
    intros [q|] es _; apply spec_ret; auto. }
  apply spec_lift_then. intros bd Ed. apply tag_contains_has in Ed.
  destruct bd; [|apply spec_report_ret; congruence].
  eapply spec_bind with (P := fun _ es => es = [] -> length (x_kids child) = 2).
  { destruct (Nat.eqb_spec (length (x_kids child)) 2); cbn [negb];
      [apply spec_ret|apply spec_report]; auto; discriminate. }
  intros [] es1 H1.
  eapply spec_bind; [apply parse_divide_form|]. intros [[ns ds]|] es2 H2; [|apply spec_ret; congruence].
  destruct (x_kids child) as [|a [|b' l]] eqn:Ec; [apply spec_fail|apply spec_fail|].
  destruct (opt_eqb_spec str_eqb str_eqb_spec (x_tag a) (x_tag b')) as [Et|Et].
  { apply spec_report_then. intros e. apply spec_ret. intros _ E.
    apply app_eq_nil in E as [_ E]. apply app_eq_nil in E as [_ E]. discriminate. }
  eapply spec_skip; [apply spec_ret; reflexivity|]. apply spec_ret.
  intros _ E. apply app_eq_nil in E as [E1 E]. rewrite app_nil_r in E.
  pose proof (H1 E1) as Hl. cbn in Hl. destruct l; [|discriminate].
  right. exists child, a, b'. split; [exact Ek|]. split; [apply Ed; reflexivity|].
  split; [exact Ec|]. split; [exact Et|]. intros c Hc. apply (H2 E c Hc). discriminate.
Qed.

(** What a fact element does. *)
Lemma parse_fact_element_sem i x : In i docs -> In x (fact_elements i) ->
  forall s s', inv s -> parse_fact_element parse_date rep nillable i x s = Ok (tt, s') ->
  inv s' /\ exists o, outcome_of concept_shared unit_shared entity_shared period_shared
                        explicit_shared typed_shared (i, x) o /\
     s_errors s' = s_errors s ++ snd o /\
     s_facts s' = match fst o with Some f => facts_upsert (s_facts s) f | None => s_facts s end.
Proof.
  intros Hi Hx. assert (Ho : occurs docs x).
  { exists i. split; [exact Hi|]. apply filter_In in Hx as [Hx _]. exact Hx. }
  set (R := fun (m : M unit) es0 => forall s s', inv s -> m s = Ok (tt, s') ->
    inv s' /\ exists o, (fst o = None -> es0 ++ snd o <> []) /\
      (forall f, fst o = Some f -> fact_shared i x f) /\
      s_errors s' = s_errors s ++ snd o /\
      s_facts s' = match fst o with Some f => facts_upsert (s_facts s) f | None => s_facts s end).
  assert (Rspec : forall (m : M unit) es0, spec m (fun _ es => es0 ++ es <> []) -> R m es0).
  { intros m es0 Hm s s' Hs E. destruct (Hm _ _ _ Hs E) as (Hs' & F & es & Es & He).
    split; [exact Hs'|]. exists (None, es). cbn. split; [intros _; exact He|]. split; [discriminate|].
    auto. }
  assert (Rbind : forall A (m : M A) (f : A -> M unit) P es0, spec m P ->
             (forall a es, P a es -> R (f a) (es0 ++ es)) -> R (mbind m f) es0).
  { intros A m f P es0 Hm Hf s s' Hs. unfold mbind.
    destruct (m s) as [[a s1]|] eqn:E; [|discriminate]. intros E'.
    destruct (Hm _ _ _ Hs E) as (Hs1 & F1 & es & Es & HP).
    destruct (Hf a es HP _ _ Hs1 E') as (Hs2 & [r es'] & H1 & H2 & H3 & H4).
    cbn [fst snd] in *. split; [exact Hs2|].
    exists (r, es ++ es'). cbn. rewrite app_assoc. split; [exact H1|]. split; [exact H2|].
    split; [rewrite H3, Es, app_assoc; reflexivity|]. rewrite H4, F1. reflexivity. }
  assert (HR : R (parse_fact_element parse_date rep nillable i x) []).
  { unfold parse_fact_element.
    eapply Rbind; [apply spec_lift with
      (Q := fun q _ => qname_from_str (str_opt (x_tag x)) (x_scope x) = Ok q); auto|]. intros q es Eq.
    destruct (has_typed_qname is_concept rep q) eqn:Eh; cbn [negb].
    2:{ apply Rspec. apply spec_report. intros e. destruct (es); discriminate. }
    assert (Hown : exists e', concept_exact rep x e').
    { unfold has_typed_qname in Eh. destruct (get_typed_by_qname is_concept rep q) as [e'|] eqn:Er; [|discriminate].
      exists e'. split; [reflexivity|]. exists q. auto. }
    eapply Rbind; [apply concept_spec; [exact Ho|exact Hown]|]. intros c es1 (e & -> & Hc).
    eapply Rbind; [apply fact_unit_spec, Hi|]. intros [us|] es2 [Hu He].
    2:{ apply Rspec. apply spec_ret. rewrite app_nil_r. intros E.
        apply app_eq_nil in E as [_ E]. exact (He eq_refl E). }
    eapply Rbind; [apply spec_lift with (Q := fun cid _ => attr x (u "contextRef") = Some cid)|].
    { intros cid E. unfold get_str_attribute in E. destruct (attr x (u "contextRef")); congruence. }
    intros cid es3 Ecid.
    destruct (find_by_id (u "context") cid i) as [xc|] eqn:Ef.
    2:{ apply Rspec. apply spec_report. intros e'. intros E. apply app_eq_nil in E as [_ E]. discriminate. }
    assert (Hxc : occurs docs xc) by (eapply occurs_by_id; eauto).
    eapply Rbind; [apply parse_context_spec, Hxc|]. intros [cx|] es4 [Hcx He4].
    2:{ apply Rspec. apply spec_ret. rewrite app_nil_r. intros E.
        apply app_eq_nil in E as [_ E]. exact (He4 eq_refl E). }
    unfold parse_fact.
    destruct Hcx as (id & xp & xe & p & en & ds & Hid & Hp & Hen & H1 & H2 & H3 & Hcx).
    destruct (get_characteristic cx a_concept) as [[]|] eqn:Eg; try (intros ? ? ? HH; discriminate HH).
    eapply Rbind with (P := fun v _ => v = match x_text x with Some v => v | None => [] end).
    { destruct (x_text x); [apply spec_ret; reflexivity|].
      eapply spec_may; [destruct (nillable c); [apply spec_ret|apply spec_report]; auto|auto|].
      apply spec_ret. reflexivity. }
    intros v es5 ->.
    eapply Rbind with (P := fun _ _ => True).
    { destruct (get_characteristic cx a_unit); [|apply spec_ret; auto].
      destruct (attr x (u "unitRef")) as [[|]|]; try (apply spec_ret; auto; fail).
      destruct (str_eqb _ _); [apply spec_ret|apply spec_report]; auto. }
    intros [] es6 _.
    eapply Rbind with (P := fun _ _ => True).
    { destruct (str_eqb _ _); [apply spec_ret|apply spec_report]; auto. }
    intros [] es7 _.
    intros s s' Hs [= <-]. split; [exact Hs|]. cbn.
    eexists (Some _, []). cbn. split; [discriminate|]. split; [|split; [symmetry; apply app_nil_r|reflexivity]].
    intros f [= <-]. exists cid, xc, e, us. cbn.
    destruct (find_by_id_some _ _ _ _ Ef) as [_ Hid'].
    assert (id = cid) by congruence. subst id.
    split; [exact Ecid|]. split; [exact Ef|]. split; [exact Hc|]. split; [exact Hu|].
    split; [exists cid, xp, xe, p, en, ds; auto 10|].
    split; [rewrite Hcx, fold_id; reflexivity|]. auto. }
  intros s s' Hs E. destruct (HR s s' Hs E) as (Hs' & o & H1 & H2 & H3 & H4).
  split; [exact Hs'|]. exists o. split; [|auto].
  unfold outcome_of. cbn [fst snd]. destruct (fst o) as [f|] eqn:Ef; [apply H2; reflexivity|].
  apply H1. reflexivity.
Qed.

Definition after (s : state) (os : list outcome) (s' : state) : Prop :=
  s_errors s' = s_errors s ++ concat (map snd os) /\
  s_facts s' = fold_left facts_upsert (somes (map fst os)) (s_facts s).

Lemma after_nil s : after s [] s.
Proof. split; cbn; [rewrite app_nil_r|]; reflexivity. Qed.

Lemma after_app s os s1 os' s2 : after s os s1 -> after s1 os' s2 -> after s (os ++ os') s2.
Proof.
  intros [E1 F1] [E2 F2]. split.
  - rewrite E2, E1, map_app, concat_app, app_assoc. reflexivity.
  - rewrite F2, F1, map_app. unfold somes. rewrite flat_map_app, fold_left_app. reflexivity.
Qed.

Lemma parse_facts_sem : forall s s', inv s ->
  parse_facts parse_date rep nillable docs s = Ok (tt, s') ->
  inv s' /\ exists os, Forall2 (outcome_of concept_shared unit_shared entity_shared period_shared
                        explicit_shared typed_shared) (all_fact_elements docs) os /\ after s os s'.
Proof.
  unfold parse_facts, all_fact_elements.
  assert (H : forall l, incl l docs -> forall s s', inv s ->
    for_each (fun i => for_each (parse_fact_element parse_date rep nillable i) (fact_elements i)) l s
      = Ok (tt, s') ->
    inv s' /\ exists os, Forall2 (outcome_of concept_shared unit_shared entity_shared period_shared
      explicit_shared typed_shared) (flat_map (fun i => map (pair i) (fact_elements i)) l) os /\
      after s os s'); [|apply H, incl_refl].
  intros l; induction l as [|i l IH]; intros Hsub s s' Hs; cbn [for_each flat_map].
  - intros [= <-]. split; [exact Hs|]. exists []. split; [constructor|apply after_nil].
  - assert (Hi : In i docs) by (apply Hsub; left; reflexivity).
    unfold mbind at 1.
    destruct (for_each (parse_fact_element parse_date rep nillable i) (fact_elements i) s)
      as [[[] s1]|] eqn:E1; [|discriminate]. intros E2.
    assert (H1 : inv s1 /\ exists os, Forall2 (outcome_of concept_shared unit_shared entity_shared
        period_shared explicit_shared typed_shared) (map (pair i) (fact_elements i)) os /\ after s os s1).
    { assert (Hx : forall xs, incl xs (fact_elements i) -> forall s, inv s ->
        for_each (parse_fact_element parse_date rep nillable i) xs s = Ok (tt, s1) ->
        inv s1 /\ exists os, Forall2 (outcome_of concept_shared unit_shared entity_shared
          period_shared explicit_shared typed_shared) (map (pair i) xs) os /\ after s os s1);
        [|apply (Hx _ (incl_refl _) s Hs E1)].
      clear E1 E2 IH s Hs. intros xs.
      induction xs as [|x xs IHx]; intros Hin s Hs; cbn [for_each map].
      - intros [= <-]. split; [exact Hs|]. exists []. split; [constructor|apply after_nil].
      - unfold mbind at 1.
        destruct (parse_fact_element parse_date rep nillable i x s) as [[[] s2]|] eqn:E; [|discriminate].
        intros E1.
        destruct (parse_fact_element_sem i x Hi (Hin x (or_introl eq_refl)) _ _ Hs E)
          as (Hs2 & o & Ho & He & Hf).
        destruct (IHx (fun y Hy => Hin y (or_intror Hy)) _ Hs2 E1) as (Hs1 & os & Hos & Ha).
        split; [exact Hs1|]. exists (o :: os). split; [constructor; assumption|].
        apply (after_app s [o] s2 os s1); [|exact Ha].
        split; cbn; [rewrite app_nil_r; exact He|]. rewrite Hf. destruct (fst o); reflexivity. }
    destruct H1 as (Hs1 & os & Hos & Ha).
    destruct (IH (fun y Hy => Hsub y (or_intror Hy)) _ _ Hs1 E2) as (Hs' & os' & Hos' & Ha').
    split; [exact Hs'|]. exists (os ++ os'). split; [apply Forall2_app; assumption|].
    eapply after_app; eauto.
Qed.
End Parse.
