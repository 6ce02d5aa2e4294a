(** Which child an element is looked up as, and which declaration a name is looked up as (C38-C41, C48): said apart
    from the model's own searches. *)
From Verif Require Import Base QNameModel QNameProofs CtxModel ConceptProofs.
Local Open Scope nat_scope.

(** The element is called so, in any namespace or in none; a comment is not called anything. *)
Definition called (name : str) (x : xml) : Prop :=
  x_tag x = Some name \/ exists namespace, x_tag x = Some (u "{" ++ namespace ++ u "}" ++ name).
(** A tag as lxml writes it: a name, or a namespace in braces and a name; names have no brace. *)
Definition tag_written (x : xml) : Prop :=
  forall t, x_tag x = Some t -> exists name, ~ In (ch "}") name /\ called name x.

(** The first of a list with a property *)
Inductive the_first {A} (P : A -> Prop) : list A -> A -> Prop :=
| first_here a l : P a -> the_first P (a :: l) a
| first_later b l a : ~ P b -> the_first P l a -> the_first P (b :: l) a.
(** The last of a list with a property *)
Inductive the_last {A} (P : A -> Prop) : list A -> A -> Prop :=
| last_here a l : P a -> (forall b, In b l -> ~ P b) -> the_last P (a :: l) a
| last_later b l a : the_last P l a -> the_last P (b :: l) a.

Lemma find_first {A} (p : A -> bool) (P : A -> Prop) l a : (forall b, In b l -> (p b = true <-> P b)) ->
  find p l = Some a <-> the_first P l a.
Proof.
  induction l as [|b l IH]; intros H; cbn [find]; [split; [discriminate|intros X; inversion X]|].
  assert (Hb := H b (or_introl eq_refl)). assert (IH' := IH (fun c Hc => H c (or_intror Hc))). clear IH H.
  destruct (p b).
  - split; [intros E; injection E as <-; constructor; tauto|].
    intros X. inversion X; subst; [reflexivity|]. exfalso. tauto.
  - rewrite IH'. split; [intros X; constructor; [|exact X]; intros Y; apply Hb in Y; discriminate|].
    intros X. inversion X; subst; [|assumption]. exfalso. assert (false = true) by tauto. discriminate.
Qed.
Lemma find_none {A} (p : A -> bool) (P : A -> Prop) l : (forall b, In b l -> (p b = true <-> P b)) ->
  find p l = None <-> forall b, In b l -> ~ P b.
Proof.
  intros H. split.
  - intros E b Hb Pb. apply (H b Hb) in Pb. rewrite (find_none _ _ E b Hb) in Pb. discriminate.
  - intros N. destruct (find p l) as [a|] eqn:E; [|reflexivity]. apply find_some in E. destruct E as [Ha Pa].
    exfalso. apply (N a Ha). apply (H a Ha). exact Pa.
Qed.

Lemma local_of_called t name : ~ In (ch "}") name ->
  (exists m, ~ In (ch "}") m /\ (t = m \/ exists ns, t = u "{" ++ ns ++ u "}" ++ m)) ->
  local_of t = name <-> t = name \/ exists ns, t = u "{" ++ ns ++ u "}" ++ name.
Proof.
  intros Hn (m & Hm & W). unfold local_of. split.
  - intros E. destruct W as [-> | [ns ->]].
    + rewrite last_split_none in E by exact Hm. left. exact E.
    + right. exists ns. rewrite app_assoc in E. change (u "}" ++ m) with (ch "}" :: m) in E.
      rewrite last_split_app in E by exact Hm. rewrite E. reflexivity.
  - intros [-> | [ns ->]].
    + apply last_split_none. exact Hn.
    + rewrite app_assoc. change (u "}" ++ name) with (ch "}" :: name). apply last_split_app. exact Hn.
Qed.

Lemma has_local_called name x : ~ In (ch "}") name -> tag_written x -> has_local name x = true <-> called name x.
Proof.
  intros Hn W. unfold has_local, called. destruct (x_tag x) as [t|] eqn:E.
  - rewrite str_eqb_eq. rewrite local_of_called; [|exact Hn|].
    + split.
      * intros [H | [ns H]]; [left|right; exists ns]; rewrite H; reflexivity.
      * intros [H | [ns H]]; injection H as H; [left|right; exists ns]; exact H.
    + destruct (W t E) as (m & Hm & [C|[ns C]]); exists m; (split; [exact Hm|]); rewrite E in C; injection C as C; [left|right; exists ns]; exact C.
  - split; [discriminate|]. intros [H | [ns H]]; discriminate.
Qed.

(** ** Children *)

(** The identifier of an entity, the entity, period and segment of a context, and the dates of a period are the first
    children called so. *)
Theorem C38_child name x k : ~ In (ch "}") name -> (forall c, In c (x_kids x) -> tag_written c) ->
  (find_kid name x = Some k <-> the_first (called name) (x_kids x) k) /\
  (find_kid name x = None <-> forall c, In c (x_kids x) -> ~ called name c).
Proof.
  intros Hn W. unfold find_kid. split; [apply find_first|apply find_none];
    intros c Hc; apply has_local_called; auto.
Qed.

(** The unit and the context of a fact are the first children called so that have the identifier. *)
Theorem C41_by_id name id x k : ~ In (ch "}") name -> (forall c, In c (x_kids x) -> tag_written c) ->
  let fits c := called name c /\ attr c (u "id") = Some id in
  (find_by_id name id x = Some k <-> the_first fits (x_kids x) k) /\
  (find_by_id name id x = None <-> forall c, In c (x_kids x) -> ~ fits c).
Proof.
  intros Hn W fits. unfold find_by_id.
  assert (H : forall c, In c (x_kids x) -> (has_local name c && opt_eqb str_eqb (attr c (u "id")) (Some id) = true <-> fits c)).
  { intros c Hc. unfold fits. rewrite andb_true_iff, (has_local_called name c Hn (W c Hc)).
    destruct (attr c (u "id")) as [i|]; cbn [opt_eqb]; [rewrite str_eqb_eq|]; (split; intros [H1 H2]; (split; [exact H1|])); congruence. }
  split; [apply find_first|apply find_none]; exact H.
Qed.

(** ** Declarations *)

Definition declared (es : list element) : repository := fold_left upsert es empty_repo.

Lemma by_qname_fold q : forall es r, dict_get qname_eqb (by_qname (fold_left upsert es r)) q =
  fold_left (fun o e => if qname_eqb (e_name e) q then Some e else o) es (dict_get qname_eqb (by_qname r) q).
Proof.
  induction es as [|e es IH]; intros r; [reflexivity|]. cbn [fold_left]. rewrite IH. f_equal.
  unfold upsert. cbn [by_qname]. destruct (qname_eqb_spec (e_name e) q) as [->|N].
  - apply (dict_get_set_same qname_eqb qname_eqb_spec).
  - apply (dict_get_set_other qname_eqb qname_eqb_spec). exact N.
Qed.
Lemma fold_last q : forall es o e, fold_left (fun o e => if qname_eqb (e_name e) q then Some e else o) es o = Some e <->
  the_last (fun e => e_name e = q) es e \/ ((forall b, In b es -> e_name b <> q) /\ o = Some e).
Proof.
  induction es as [|b es IH]; intros o e; cbn [fold_left].
  - split; [intros ->; right; split; [intros b []|reflexivity]|]. intros [H|[_ H]]; [inversion H|exact H].
  - rewrite IH. destruct (qname_eqb_spec (e_name b) q) as [E|N].
    + split.
      * intros [H|[H1 H2]]; [left; constructor; exact H|]. injection H2 as <-. left. constructor; auto.
      * intros [H|[H1 _]]; [|exfalso; exact (H1 b (or_introl eq_refl) E)].
        inversion H; subst; [right|left]; auto.
    + split.
      * intros [H|[H1 H2]]; [left; constructor; exact H|]. right. split; [|exact H2]. intros c [<-|Hc]; auto.
      * intros [H|[H1 H2]]; [inversion H; subst; [contradiction|left; assumption]|].
        right. split; [|exact H2]. intros c Hc. apply H1. right. exact Hc.
Qed.

Lemma typed_found is_t es q e : get_typed_by_qname is_t (declared es) q = Ok e <->
  the_last (fun e => e_name e = q) es e /\ is_t e = true.
Proof.
  unfold get_typed_by_qname, get_by_qname, declared.
  assert (F := by_qname_fold q es empty_repo). change (dict_get qname_eqb (by_qname empty_repo) q) with (@None element) in F.
  destruct (dict_get _ _ q) as [e'|]; symmetry in F.
  - apply fold_last in F. destruct F as [F|[_ F]]; [|discriminate]. cbn [bind].
    assert (U : forall a, the_last (fun e => e_name e = q) es a -> a = e').
    { intros a Ha. assert (Hx := proj2 (fold_last q es None a) (or_introl Ha)).
      assert (Hy := proj2 (fold_last q es None e') (or_introl F)). congruence. }
    destruct (is_t e') eqn:T.
    + split; [intros E; injection E as <-; auto|]. intros [H _]. rewrite (U e H). reflexivity.
    + split; [discriminate|]. intros [H K]. rewrite (U e H) in K. congruence.
  - cbn [bind]. split; [discriminate|]. intros [H _].
    assert (Hx := proj2 (fold_last q es None e) (or_introl H)). rewrite F in Hx. discriminate.
Qed.

(** The dimension that a dimension element names is the last declaration of that name, if it is one of a dimension; the
    same goes for members. *)
Theorem C39_dimension_found es q e : get_typed_by_qname is_dimension (declared es) q = Ok e <->
  the_last (fun e => e_name e = q) es e /\ e_kind e = KDimension.
Proof. rewrite typed_found. unfold is_dimension. destruct (e_kind e); intuition congruence. Qed.
Theorem C39_member_found es q e : get_typed_by_qname is_member (declared es) q = Ok e <->
  the_last (fun e => e_name e = q) es e /\ e_kind e = KMember.
Proof. rewrite typed_found. unfold is_member. destruct (e_kind e); intuition congruence. Qed.
(** The same goes for concepts of facts. *)
Theorem C48_concept_found es q e : get_typed_by_qname is_concept (declared es) q = Ok e <->
  the_last (fun e => e_name e = q) es e /\ e_kind e = KConcept.
Proof. rewrite typed_found. unfold is_concept. destruct (e_kind e); intuition congruence. Qed.

(** Cases: a comment, an element of another namespace and an element without one *)
Definition s_child (tag : option str) (id : string) : xml := Xml tag [(u "id", u id)] [] None [].
Definition s_parent : xml := Xml (Some (u "{x}context")) [] [] None
  [s_child None "c"; s_child (Some (u "{x}entities")) "a"; s_child (Some (u "{x}entity")) "b"; s_child (Some (u "entity")) "d"].
Example C38_child_case : find_kid (u "entity") s_parent = Some (s_child (Some (u "{x}entity")) "b") /\
  find_by_id (u "entity") (u "d") s_parent = Some (s_child (Some (u "entity")) "d") /\
  find_by_id (u "entity") (u "a") s_parent = None /\ ~ In (ch "}") (u "entity") /\
  forall c, In c (x_kids s_parent) -> tag_written c.
Proof.
  assert (N : forall s, existsb (N.eqb (ch "}")) (u s) = false -> ~ In (ch "}") (u s)).
  { intros s H I. assert (existsb (N.eqb (ch "}")) (u s) = true); [|congruence]. apply existsb_exists. exists (ch "}").
    split; [exact I|apply N.eqb_refl]. }
  split; [vm_compute; reflexivity|]. split; [vm_compute; reflexivity|]. split; [vm_compute; reflexivity|].
  split; [apply N; vm_compute; reflexivity|].
  intros c Hc t Ht. cbn [s_parent x_kids In] in Hc. destruct Hc as [<-|[<-|[<-|[<-|[]]]]].
  - discriminate.
  - exists (u "entities"). split; [apply N; vm_compute; reflexivity|]. right. exists (u "x"). vm_compute. reflexivity.
  - exists (u "entity"). split; [apply N; vm_compute; reflexivity|]. right. exists (u "x"). vm_compute. reflexivity.
  - exists (u "entity"). split; [apply N; vm_compute; reflexivity|]. left. vm_compute. reflexivity.
Qed.
Definition s_name (l : string) : qname := QName (u "uri") (u "p") (u l).
Example C39_found_case :
  get_typed_by_qname is_dimension (declared [Element (s_name "a") None KMember 0; Element (s_name "a") None KDimension 1;
    Element (s_name "b") None KMember 2]) (s_name "a") = Ok (Element (s_name "a") None KDimension 1).
Proof. vm_compute. reflexivity. Qed.

Print Assumptions C38_child.
Print Assumptions C41_by_id.
Print Assumptions C39_dimension_found.
Print Assumptions C39_member_found.
Print Assumptions C48_concept_found.
