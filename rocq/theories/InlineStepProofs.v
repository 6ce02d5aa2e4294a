(** Steps of reading inline documents that do not depend on the state, and the errors that can be
    recorded. *)
From Verif Require Import Base Regex PyNum NumModel DateModel QNameModel QNameProofs ErrBase ErrTable ErrModel
  CtxModel CtxSpec CtxProofs CtxParseProofs InlineModel InlineSpec InlineProofs.

Ltac recordable := intros; eexists; vm_compute; reflexivity.

Lemma mk_head x : exists e, create (elem := xml) "IXBRL_HEADER_ELEMENT_IN_HEAD" x [] = Ok e. Proof. recordable. Qed.
Lemma mk_child x t : exists e, create (elem := xml) "IXBRL_INVALID_HEADER_CHILD" x [(u "child_tag", t)] = Ok e. Proof. recordable. Qed.
Lemma mk_hiddens x t : exists e, create (elem := xml) "IXBRL_MORE_THAN_ONE_HIDDEN_HEADER_CHILD" x [(u "count", t)] = Ok e. Proof. recordable. Qed.
Lemma mk_resources x t : exists e, create (elem := xml) "IXBRL_MORE_THAN_ONE_RESOURCES_HEADER_CHILD" x [(u "count", t)] = Ok e. Proof. recordable. Qed.
Lemma mk_no_header : exists e, create (elem := xml) "IXBRL_NO_HEADER_ELEMENTS" None [] = Ok e. Proof. recordable. Qed.
Lemma mk_no_resources : exists e, create (elem := xml) "IXBRL_NO_RESOURCES_ELEMENTS" None [] = Ok e. Proof. recordable. Qed.
Lemma mk_dup x t : exists e, create (elem := xml) "IXBRL_DUPLICATE_ELEMENT_ID" x [(u "id", t)] = Ok e. Proof. recordable. Qed.
Lemma mk_empty_ref x : exists e, create (elem := xml) "IXBRL_REFERENCES_ELEMENT_WITHOUT_CHILDREN" x [] = Ok e. Proof. recordable. Qed.
Lemma mk_resource_child x t : exists e, create (elem := xml) "IXBRL_INVALID_RESOURCES_CHILD" x [(u "child_tag", t)] = Ok e. Proof. recordable. Qed.
Lemma mk_unsupported x t : exists e, create (elem := xml) "IXBRL_ELEMENT_NOT_SUPPORTED" x [(u "tag", t)] = Ok e. Proof. recordable. Qed.
Lemma no_ref_child x t : exists e, create (elem := xml) "IXBRL_INVALID_REFERENCES_CHILD" x [(u "child_tag", t)] = Raise e. Proof. recordable. Qed.
Lemma no_hidden_child x t : exists e, create (elem := xml) "IXBRL_INVALID_HIDDEN_ELEMENT" x [(u "tag", t)] = Raise e. Proof. recordable. Qed.

Local Opaque u create.

(** ** Steps that do not depend on the state *)

Definition does {A} (m : M A) (a : A) (ps : list problem) : Prop :=
  forall s, exists es, m s = Ok (a, with_errors s es) /\ Forall2 made ps es.
Definition raises {A} (m : M A) : Prop := forall s, exists e, m s = Raise e.

Lemma with_nil s : with_errors s [] = s.
Proof. destruct s. unfold with_errors. cbn. rewrite app_nil_r. reflexivity. Qed.
Lemma with_app s a b : with_errors (with_errors s a) b = with_errors s (a ++ b).
Proof. unfold with_errors. cbn. rewrite <- app_assoc. reflexivity. Qed.

Lemma does_ret {A} (a : A) : does (ret a) a [].
Proof. intros s. exists []. rewrite with_nil. split; [reflexivity|constructor]. Qed.
Lemma does_bind {A B} (m : M A) (f : A -> M B) a b ps ps' :
  does m a ps -> does (f a) b ps' -> does (let! x := m in f x) b (ps ++ ps').
Proof.
  intros Hm Hf s. destruct (Hm s) as (es & E & He). destruct (Hf (with_errors s es)) as (es' & E' & He').
  exists (es ++ es'). unfold mbind. rewrite E, E', with_app. split; [reflexivity|]. apply Forall2_app; assumption.
Qed.
Lemma raises_left {A B} (m : M A) (f : A -> M B) : raises m -> raises (let! x := m in f x).
Proof. intros H s. destruct (H s) as [e E]. exists e. unfold mbind. rewrite E. reflexivity. Qed.
Lemma raises_right {A B} (m : M A) (f : A -> M B) a ps : does m a ps -> raises (f a) -> raises (let! x := m in f x).
Proof.
  intros Hm Hf s. destruct (Hm s) as (es & E & He). destruct (Hf (with_errors s es)) as (e & E').
  exists e. unfold mbind. rewrite E, E'. reflexivity.
Qed.
Lemma does_lift {A B} (r : res A) (a : A) (f : A -> M B) b ps :
  r = Ok a -> does (f a) b ps -> does (let! x := lift r in f x) b ps.
Proof. intros -> H s. exact (H s). Qed.
Lemma raises_lift {A B} e (f : A -> M B) : raises (let! x := lift (Raise e) in f x).
Proof. intros s. exists e. reflexivity. Qed.
Lemma raises_lift_ok {A B} (r : res A) (a : A) (f : A -> M B) : r = Ok a -> raises (f a) -> raises (let! x := lift r in f x).
Proof. intros -> H s. exact (H s). Qed.
Lemma does_report code x kw : (exists e, create code (Some x) kw = Ok e) ->
  does (report code x kw) tt [(code, Some x)].
Proof.
  intros [e E] s. exists [e]. unfold report, insert. rewrite E. cbn. split; [reflexivity|].
  constructor; [|constructor]. exists kw. exact E.
Qed.
Lemma does_report_plain code : (exists e, create (elem := xml) code None [] = Ok e) ->
  does (report_plain code) tt [(code, None)].
Proof.
  intros [e E] s. exists [e]. unfold report_plain, insert. rewrite E. cbn. split; [reflexivity|].
  constructor; [|constructor]. exists []. exact E.
Qed.
Lemma raises_report code x kw : (exists e, create code (Some x) kw = Raise e) -> raises (report code x kw).
Proof. intros [e E] s. exists e. unfold report, insert. rewrite E. reflexivity. Qed.
Lemma does_when b m p : does m tt [p] -> does (when b m) tt (problem_if b p).
Proof. intros H. destruct b; [exact H|apply does_ret]. Qed.
Lemma does_eq {A} (m : M A) a a' ps ps' : does m a ps -> a = a' -> ps = ps' -> does m a' ps'.
Proof. intros H -> ->. exact H. Qed.

Lemma does_for {A} (f : A -> M unit) (p : A -> list problem) l :
  (forall a, In a l -> does (f a) tt (p a)) -> does (for_each f l) tt (flat_map p l).
Proof.
  induction l as [|a l IH]; intros H; cbn; [apply does_ret|].
  eapply does_bind; [apply H; left; reflexivity|]. apply IH. intros b Hb. apply H. right. exact Hb.
Qed.
Lemma raises_for {A} (f : A -> M unit) (p : A -> list problem) (bad : A -> Prop) l :
  (forall a, In a l -> bad a /\ raises (f a) \/ ~ bad a /\ does (f a) tt (p a)) ->
  (exists a, In a l /\ bad a) -> raises (for_each f l).
Proof.
  induction l as [|a l IH]; intros H (b & Hb & Hbad); [destruct Hb|]. cbn.
  destruct (H a (or_introl eq_refl)) as [[_ Hr]|[Hn Hd]]; [apply raises_left, Hr|].
  eapply raises_right; [exact Hd|]. apply IH; [intros c Hc; apply H; right; exact Hc|].
  destruct Hb as [<-|Hb]; [contradiction|]. exists b. auto.
Qed.

(** ** Names *)

Lemma tag_name_some x t : x_tag x = Some t -> exists n, tag_name x = Ok n.
Proof.
  unfold tag_name. intros ->. destruct (qname_total t (x_scope x)) as [q ->]. cbn. eauto.
Qed.
Lemma tag_name_none x : is_comment x -> tag_name x = Raise TypeError.
Proof. unfold is_comment, tag_name. intros ->. reflexivity. Qed.
Lemma tag_name_cases x : is_comment x /\ tag_name x = Raise TypeError \/
  ~ is_comment x /\ exists n, tag_name x = Ok n.
Proof.
  unfold is_comment. destruct (x_tag x) as [t|] eqn:E.
  - right. split; [discriminate|]. eapply tag_name_some, E.
  - left. split; [reflexivity|]. apply tag_name_none, E.
Qed.
Lemma is_named_ok x n t : tag_name x = Ok n -> is_named t x = str_eqb n t.
Proof. unfold is_named. intros ->. reflexivity. Qed.
