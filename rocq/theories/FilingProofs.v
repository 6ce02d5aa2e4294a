(** Lemmas about whole filings. *)
From Coq Require Import QArith Permutation.
From Verif Require Import Base QNameModel ErrBase ErrTable ErrModel CtxModel CtxSpec CtxProofs CtxParseProofs.
From Verif Require Import QNameProofs.
From Verif Require ConceptModel ConceptSpec ConceptProofs ConceptLoad NetModel LangModel LinkModel LinkNetProofs CompModel CompSpec CompProofs.
From Verif Require Import FilingModel FilingSpec.
Local Open Scope nat_scope.

(** ** Report elements *)

Lemma resolve_name trees root x e es e' es' :
  ConceptModel.resolve_domain trees root x e es = Ok (e', es') -> ConceptModel.r_name e' = ConceptModel.r_name e.
Proof.
  unfold ConceptModel.resolve_domain. destruct (qname_from_str _ _) as [name|]; [|discriminate]. cbn [bind].
  destruct (attr x (clark_notation name)) as [t|]; [|intros [= <- _]; reflexivity].
  destruct (split_char (ch "#") t) as [|a [|b [|]]]; try discriminate.
  match goal with |- bind ?m _ = _ -> _ => destruct m as [refschema|]; [|discriminate] end. cbn [bind].
  destruct (ConceptModel.find_id refschema b) as [y|].
  - destruct (get_str_attribute _ _); [|discriminate]. cbn [bind].
    destruct (qname_from_str _ _); [|discriminate]. cbn [bind]. intros [= <- _]. reflexivity.
  - destruct (insert _ _ _ _); [|discriminate]. cbn [bind]. intros [= <- _]. reflexivity.
Qed.

Lemma create_name x q es e es' :
  ConceptModel.create_element x q es = Ok (Some e, es') -> ConceptModel.r_name e = q.
Proof.
  unfold ConceptModel.create_element. cbv zeta.
  repeat match goal with |- (if ?b then _ else _) = _ -> _ => destruct b end;
    try (intros [= <- _]; reflexivity); try discriminate.
  destruct (ConceptProofs.concept_from_xml_outcome x (attr x (u "id")) q es) as [(c & _ & H)|(er & code & H & _)];
    rewrite H; [intros [= <- _]; reflexivity|discriminate].
Qed.

Definition stored_repo (r : ConceptModel.rrepo) : Prop :=
  exists reg, NoDup (map ConceptModel.r_name reg) /\ r = ConceptLoad.stored reg.

Lemma stored_add r e : stored_repo r -> ConceptModel.rr_has_qname r (ConceptModel.r_name e) = false ->
  stored_repo (ConceptModel.rr_upsert r e).
Proof.
  intros (reg & Hn & ->) Hh. exists (reg ++ [e]). split.
  - rewrite map_app. apply NoDup_snoc; [exact Hn|]. intros Hi.
    apply (ConceptLoad.stored_has _ _ Hn) in Hi. congruence.
  - symmetry. apply ConceptLoad.stored_snoc.
Qed.

Lemma declaration_stored trees root tns x st st' :
  stored_repo (fst st) -> ConceptModel.parse_declaration trees root tns x st = Ok st' -> stored_repo (fst st').
Proof.
  destruct st as [r es]. cbn [fst]. intros Hr. unfold ConceptModel.parse_declaration.
  destruct (get_str_attribute x (u "name")) as [name|]; [|discriminate]. cbn [bind].
  destruct (qname_from_str _ _) as [q|]; [|discriminate]. cbn [bind].
  destruct (ConceptModel.create_element x q es) as [[[e|] es1]|] eqn:Ec; [| |discriminate]; cbn [bind].
  2: { intros [= <-]. exact Hr. }
  apply create_name in Ec.
  destruct (ConceptModel.rr_has_qname r q) eqn:Eh; [intros [= <-]; exact Hr|].
  destruct (ConceptModel.r_body e);
    try (intros [= <-]; apply stored_add; [exact Hr|rewrite Ec; exact Eh]).
  destruct (ConceptModel.resolve_domain _ _ _ _ _) as [[e2 es2]|] eqn:Er; [|discriminate]. cbn [bind].
  intros [= <-]. apply stored_add; [exact Hr|]. rewrite (resolve_name _ _ _ _ _ _ _ Er), Ec. exact Eh.
Qed.

Lemma for_all_keeps {A S} (P : S -> Prop) (f : A -> S -> res S) :
  (forall x s s', P s -> f x s = Ok s' -> P s') ->
  forall l s s', P s -> ConceptModel.for_all f l s = Ok s' -> P s'.
Proof.
  intros Hf. induction l as [|x l IH]; intros s s' Hs; cbn [ConceptModel.for_all].
  - intros [= <-]. exact Hs.
  - destruct (f x s) as [s1|] eqn:E; [|discriminate]. cbn [bind]. apply IH. exact (Hf _ _ _ Hs E).
Qed.

Lemma elements_stored trees es st' :
  ConceptModel.parse_report_elements trees (ConceptModel.empty_rrepo, es) = Ok st' -> stored_repo (fst st').
Proof.
  unfold ConceptModel.parse_report_elements.
  apply (for_all_keeps (fun st => stored_repo (fst st))).
  - intros t s s' Hs. destruct (attr t (u "targetNamespace")) as [tns|]; [|intros [= <-]; exact Hs].
    apply (for_all_keeps (fun st => stored_repo (fst st)));
      [|exact Hs]. intros x a b. apply declaration_stored.
  - cbn [fst]. exists []. split; [constructor|reflexivity].
Qed.

(** *** The repository of the later stages *)

Lemma index_of_nth {A} (eqb : A -> A -> bool) (spec : forall x y, reflect (x = y) (eqb x y)) l x :
  In x l -> nth_error l (index_of eqb x l) = Some x.
Proof.
  induction l as [|y l IH]; [intros []|]. intros H. cbn [index_of]. destruct (spec x y) as [->|Hn]; [reflexivity|].
  cbn [nth_error]. apply IH. destruct H as [->|H]; [contradiction|exact H].
Qed.

Lemma index_of_pos {A} (eqb : A -> A -> bool) (spec : forall x y, reflect (x = y) (eqb x y)) l i x :
  NoDup l -> nth_error l i = Some x -> index_of eqb x l = i.
Proof.
  intros Hn Hi. assert (Hx : In x l) by (eapply nth_error_In; exact Hi).
  pose proof (index_of_nth eqb spec l x Hx) as H.
  apply (proj1 (NoDup_nth_error l) Hn); [|congruence].
  apply nth_error_Some. congruence.
Qed.

Section Stored.
Variable reg : list ConceptModel.relement.
Hypothesis distinct : NoDup (map ConceptModel.r_name reg).
Let r := ConceptLoad.stored reg.

Lemma stored_keys : dict_keys (ConceptModel.rr_by_qname r) = map ConceptModel.r_name reg.
Proof. unfold r, dict_keys. rewrite ConceptLoad.stored_names by exact distinct. rewrite map_map. reflexivity. Qed.

Lemma number_nth i x : nth_error reg i = Some x -> number_of r (ConceptModel.r_name x) = i.
Proof.
  intros H. unfold number_of. rewrite stored_keys. apply (index_of_pos _ qname_eqb_spec); [exact distinct|].
  apply map_nth_error, H.
Qed.

Lemma number_at x : In x reg -> nth_error reg (number_of r (ConceptModel.r_name x)) = Some x.
Proof.
  intros H. apply In_nth_error in H as (i & Hi). rewrite (number_nth i x Hi). exact Hi.
Qed.

Lemma all_elements : QNameModel.get_all (repository_of r) = map (element_of r) reg.
Proof.
  unfold QNameModel.get_all, dict_values. cbn [repository_of by_qname]. unfold r.
  rewrite ConceptLoad.stored_names by exact distinct. rewrite !map_map. reflexivity.
Qed.

Lemma all_nth i e : nth_error (QNameModel.get_all (repository_of r)) i = Some e <->
  exists x, nth_error reg i = Some x /\ e = element_of r x.
Proof.
  rewrite all_elements. rewrite nth_error_map. destruct (nth_error reg i) as [x|]; cbn [option_map]; split.
  - intros [= <-]. eauto.
  - intros (y & [= <-] & ->). reflexivity.
  - discriminate.
  - intros (y & H & _). discriminate H.
Qed.

Lemma all_tag i e : nth_error (QNameModel.get_all (repository_of r)) i = Some e -> e_tag e = i.
Proof.
  intros H. apply all_nth in H as (x & Hx & ->). cbn [element_of e_tag]. apply number_nth, Hx.
Qed.

Lemma repo_get q e : dict_get qname_eqb (by_qname (repository_of r)) q = Some e <->
  In e (QNameModel.get_all (repository_of r)) /\ e_name e = q.
Proof.
  rewrite all_elements. cbn [repository_of by_qname]. unfold r. rewrite ConceptLoad.stored_names by exact distinct.
  fold r. rewrite map_map. cbn [fst snd]. split.
  - intros H. apply (dict_get_in _ qname_eqb_spec) in H. apply in_map_iff in H as (x & [= <- <-] & Hx).
    split; [apply in_map, Hx|reflexivity].
  - intros [H <-]. apply in_map_iff in H as (x & <- & Hx). apply (dict_get_in_nodup _ qname_eqb_spec).
    + unfold dict_keys. rewrite map_map. exact distinct.
    + apply in_map_iff. exists x. auto.
Qed.

Lemma repo_typed is_t q e : get_typed_by_qname is_t (repository_of r) q = Ok e ->
  In e (QNameModel.get_all (repository_of r)) /\ e_name e = q /\ is_t e = true.
Proof.
  unfold get_typed_by_qname, get_by_qname. destruct (dict_get _ _ _) as [x|] eqn:E; [|discriminate]. cbn [bind].
  destruct (is_t x) eqn:Et; [|discriminate]. intros [= ->]. apply repo_get in E as [H1 H2]. auto.
Qed.

Lemma element_last i e : last_id (QNameModel.get_all (repository_of r)) i e <->
  exists x, ConceptSpec.last_with_id reg i x /\ e = element_of r x.
Proof.
  rewrite all_elements. unfold last_id, ConceptSpec.last_with_id. split.
  - intros (b & a & E & Hi & Ha).
    apply map_eq_app in E as (l1 & l2 & -> & <- & E). destruct l2 as [|x l2]; [discriminate E|].
    cbn [map] in E. injection E as Ex Ea. exists x. split; [|symmetry; exact Ex].
    exists l1, l2. split; [reflexivity|]. subst e. split; [exact Hi|].
    intros z Hz. specialize (Ha (element_of r z)). apply Ha. rewrite <- Ea. apply in_map, Hz.
  - intros (x & (b & a & E & Hi & Ha) & ->). exists (map (element_of r) b), (map (element_of r) a).
    rewrite E at 1. split; [rewrite map_app; reflexivity|]. split; [exact Hi|].
    intros z Hz. apply in_map_iff in Hz as (y & <- & Hy). apply Ha, Hy.
Qed.

(** A registered element is in the dictionary by id only with its id. *)
Lemma has_id_get i : ConceptModel.rr_has_id r i = true <-> exists x, ConceptModel.rr_get_by_id r i = Ok x.
Proof.
  unfold ConceptModel.rr_has_id, ConceptModel.rr_get_by_id, dict_mem. destruct (dict_get _ _ _) as [x|].
  - split; [eauto|reflexivity].
  - split; [discriminate|]. intros (x & H). discriminate H.
Qed.

(** The repository is what registering the elements one by one gives. *)
Lemma map_dict_set {K V W} eqb (g : V -> W) (d : list (K * V)) k v :
  map (fun p => (fst p, g (snd p))) (dict_set eqb d k v) = dict_set eqb (map (fun p => (fst p, g (snd p))) d) k (g v).
Proof.
  induction d as [|[k' v'] d IH]; [reflexivity|]. cbn [map dict_set fst snd]. destruct (eqb k' k); cbn [map fst snd]; [reflexivity|]. rewrite IH. reflexivity.
Qed.
Lemma repository_registered : repository_of r = QNameProofs.registered (map (element_of r) reg).
Proof.
  unfold repository_of. change (ConceptModel.rr_by_qname r) with (ConceptModel.rr_by_qname (ConceptLoad.stored reg)).
  change (ConceptModel.rr_by_id r) with (ConceptModel.rr_by_id (ConceptLoad.stored reg)). generalize r as r0. clear distinct. intros r0.
  induction reg as [|e reg0 IH] using rev_ind; [reflexivity|].
  rewrite ConceptLoad.stored_snoc, map_app. cbn [map]. rewrite registered_snoc, <- IH. unfold QNameModel.upsert, ConceptModel.rr_upsert.
  cbn [ConceptModel.rr_by_qname ConceptModel.rr_by_id by_qname by_id element_of e_name e_id]. f_equal.
  - apply map_dict_set.
  - destruct (ConceptModel.r_id e); [apply map_dict_set|reflexivity].
Qed.

(** What a locator finds. *)
Lemma find_element fs i e : last_id (QNameModel.get_all (repository_of r)) i e ->
  find_in r fs i = Some (match e_kind e with KConcept => LinkModel.FConcept (e_tag e) | _ => LinkModel.FElement (e_tag e) end).
Proof.
  intros H. apply element_last in H as (x & Hx & ->). apply ConceptLoad.stored_by_id in Hx. fold r in Hx.
  unfold find_in. rewrite (proj2 (has_id_get i) (ex_intro _ x Hx)), Hx.
  cbn [element_of e_kind e_tag]. destruct (ConceptModel.r_body x); reflexivity.
Qed.

Lemma found_cases fs i fd : find_in r fs i = Some fd ->
  (exists e, last_id (QNameModel.get_all (repository_of r)) i e /\
     fd = match e_kind e with KConcept => LinkModel.FConcept (e_tag e) | _ => LinkModel.FElement (e_tag e) end) \/
  (exists n, fd = LinkModel.FFact n /\ exists x, nth_error (facts_get_all fs) n = Some x /\ dict_get str_eqb (fr_by_id fs) i = Some x).
Proof.
  intros H. destruct (ConceptModel.rr_has_id r i) eqn:Eh.
  - left. apply has_id_get in Eh as (x & Hx). apply ConceptLoad.stored_by_id in Hx.
    assert (He : last_id (QNameModel.get_all (repository_of r)) i (element_of r x)) by (apply element_last; eauto).
    exists (element_of r x). split; [exact He|]. rewrite (find_element fs i _ He) in H. congruence.
  - right. unfold find_in in H. rewrite Eh in H. unfold facts_has_id, dict_mem in H.
    destruct (dict_get str_eqb (fr_by_id fs) i) as [x|] eqn:E; [|discriminate].
    injection H as <-. eexists. split; [reflexivity|]. exists x. split; [|reflexivity].
    unfold facts_get_all, dict_values, dict_keys. clear Eh.
    induction (fr_by_id fs) as [|[k v] d IH]; [discriminate E|].
    cbn [map fst snd index_of dict_get] in *.
    destruct (str_eqb_spec i k) as [->|Hn].
    + rewrite str_eqb_refl in E. cbn [nth_error]. exact E.
    + destruct (str_eqb_spec k i) as [->|_]; [contradiction|]. cbn [nth_error]. apply IH, E.
Qed.
End Stored.

(** ** Facts *)

Lemma somes_in {A} (l : list (option A)) x : In x (somes l) <-> In (Some x) l.
Proof.
  unfold somes. rewrite in_flat_map. split.
  - intros ([y|] & Hy & H); [|destruct H]. destruct H as [<-|[]]. exact Hy.
  - intros H. exists (Some x). split; [exact H|left; reflexivity].
Qed.

Lemma dict_set_cases {V} (d : list (str * V)) k v k' v' : In (k', v') (dict_set str_eqb d k v) -> (k' = k /\ v' = v) \/ In (k', v') d.
Proof.
  induction d as [|[a b] d IH]; cbn [dict_set]; [intros [H|[]]; injection H as <- <-; auto|].
  destruct (str_eqb_spec a k) as [->|]; intros [H|H]; [injection H as <- <-; auto|right; right; exact H|right; left; exact H|]. destruct (IH H) as [K|K]; [auto|right; right; exact K].
Qed.
Lemma last_of_id (l : list element) i e : In e l -> e_id e = Some i -> exists e', last_id l i e'.
Proof.
  induction l as [|x l IH] using rev_ind; [intros []|]. intros He Ei.
  destruct (opt_eqb str_eqb (e_id x) (Some i)) eqn:E.
  - exists x, l, []. split; [reflexivity|]. split; [|intros z []]. destruct (e_id x) as [j|]; [|discriminate]. cbn in E. destruct (str_eqb_spec j i); [congruence|discriminate].
  - assert (Hx : e_id x <> Some i) by (intros K; rewrite K in E; cbn in E; rewrite str_eqb_refl in E; discriminate).
    apply in_app_or in He as [He|[->|[]]]; [|contradiction]. destruct (IH He Ei) as (e' & b & a & -> & H1 & H2). exists e', b, (a ++ [x]). split; [rewrite <- app_assoc; reflexivity|].
    split; [exact H1|]. intros z Hz. apply in_app_or in Hz as [Hz|[<-|[]]]; auto.
Qed.
Definition by_own_id (r : fact_repo) : Prop := forall i x, In (i, x) (fr_by_id r) -> f_id x = Some i.
Lemma upsert_own_id r x : by_own_id r -> by_own_id (facts_upsert r x).
Proof.
  intros H i y. unfold facts_upsert. destruct (f_id x) as [j|] eqn:E; cbn [fr_by_id]; [|apply H].
  intros K. apply dict_set_cases in K as [[-> ->]|K]; [exact E|exact (H _ _ K)].
Qed.
Lemma folded_own_id l : forall r, by_own_id r -> by_own_id (fold_left facts_upsert l r).
Proof. induction l as [|x l IH]; intros r H; [exact H|]. cbn [fold_left]. apply IH, upsert_own_id, H. Qed.

Definition repo_facts (r : fact_repo) (x : fact) : Prop := In x (facts_get_all r) \/ In x (fr_without_id r).

Lemma upsert_facts r y x : repo_facts (facts_upsert r y) x -> x = y \/ repo_facts r x.
Proof.
  unfold facts_upsert, repo_facts, facts_get_all, dict_values.
  destruct (f_id y) as [i|]; cbn [fr_by_id fr_without_id].
  - intros [H|H]; [|auto]. apply in_map_iff in H as ([k v] & <- & H).
    assert (G : (k, v) = (i, y) \/ In (k, v) (fr_by_id r)).
    { revert H. induction (fr_by_id r) as [|[k' v'] d IH]; cbn [dict_set].
      - intros [<-|[]]. auto.
      - destruct (str_eqb_spec k' i) as [->|Hn]; intros [<-|H]; cbn; auto. destruct (IH H); auto. }
    destruct G as [[= _ ->]|G]; [auto|]. right. left. apply in_map_iff. exists (k, v). auto.
  - intros [H|H]; [auto|]. apply in_app_iff in H as [H|[<-|[]]]; auto.
Qed.

Lemma folded_facts l : forall r x, repo_facts (fold_left facts_upsert l r) x -> In x l \/ repo_facts r x.
Proof.
  induction l as [|y l IH]; intros r x H; [auto|]. cbn [fold_left] in H.
  apply IH in H as [H|H]; [left; right; exact H|]. apply upsert_facts in H as [->|H]; [left; left; reflexivity|auto].
Qed.

(** A fact stays until one with its id comes. *)
Definition kept (r : fact_repo) (x : fact) : Prop :=
  match f_id x with
  | None => In x (fr_without_id r)
  | Some i => dict_get str_eqb (fr_by_id r) i = Some x
  end.
Lemma kept_new r x : kept (facts_upsert r x) x.
Proof.
  unfold kept, facts_upsert. destruct (f_id x) as [i|]; cbn [fr_by_id fr_without_id]; [apply (dict_get_set_same _ str_eqb_spec)|].
  apply in_or_app. right. left. reflexivity.
Qed.
Lemma kept_other r x y : kept r x -> (forall i, f_id x = Some i -> f_id y <> Some i) -> kept (facts_upsert r y) x.
Proof.
  unfold kept, facts_upsert. intros H Hn. destruct (f_id x) as [i|].
  - specialize (Hn i eq_refl). destruct (f_id y) as [j|]; cbn [fr_by_id]; [|exact H].
    rewrite (dict_get_set_other _ str_eqb_spec); [exact H|congruence].
  - destruct (f_id y); cbn [fr_without_id]; [exact H|]. apply in_or_app. left. exact H.
Qed.
Lemma kept_rest l : forall r x, kept r x -> (forall y i, In y l -> f_id x = Some i -> f_id y <> Some i) -> kept (fold_left facts_upsert l r) x.
Proof.
  induction l as [|y l IH]; intros r x H Hn; [exact H|]. cbn [fold_left]. apply IH; [|intros; apply Hn; [right|]; assumption].
  apply kept_other; [exact H|]. intros i. apply Hn. left. reflexivity.
Qed.
Lemma kept_get r x i : kept r x -> f_id x = Some i -> facts_get_by_id r i = Ok x /\ In x (facts_get_all r).
Proof.
  unfold kept, facts_get_by_id, facts_get_all. intros H E. rewrite E in H. rewrite H. split; [reflexivity|].
  apply (dict_get_in _ str_eqb_spec) in H. unfold dict_values. apply in_map_iff. exists (i, x). auto.
Qed.

(** The elements of the characteristics of a fact *)
Section FactElements.
Variable parse_date : str -> res date.
Variable rep : repository.
Variable P : (element -> bool) -> element -> Prop.
Hypothesis typed : forall t q e, get_typed_by_qname t rep q = Ok e -> P t e.

Definition char_elements (c : characteristic) : Prop :=
  match c with
  | ChConcept e => P is_concept e
  | ChExplicit d m _ => P is_dimension d /\ P is_member m
  | ChTyped d _ _ => P is_dimension d
  | _ => True
  end.

Lemma shared_elements docs i x f :
  fact_as (concept_shared rep docs) (unit_shared docs) (entity_shared docs) (period_shared parse_date)
    (explicit_shared rep docs) (typed_shared rep docs) i x f ->
  forall a c, get_characteristic (f_context f) a = Some c -> char_elements c.
Proof.
  intros (cid & xc & e & us & _ & _ & Hc & Hu & (id & xp & xe & p & en & ds & _ & _ & _ & Hp & He & Hd & Hx) & _) a c H.
  rewrite Hx, fold_get in H by apply new_ok. cbn [new_context get_characteristic c_chars find option_map] in H.
  apply find_some in H as [H _]. apply in_app_iff in H as [H|H].
  - destruct H as [<-|H].
    + destruct Hc as (_ & y & _ & _ & q & _ & Hq). cbn [char_elements]. exact (typed _ _ _ Hq).
    + unfold units_are in Hu. destruct (attr x (u "unitRef")) as [[|n s]|]; try (subst us; destruct H).
      destruct Hu as (c' & -> & _ & j & _ & xu & ns & dn & _ & _ & ->). destruct H as [<-|[]]. exact I.
  - apply in_app_iff in H as [H|H].
    { destruct p as [p|]; [|destruct H]. destruct H as [<-|[]].
      destruct Hp as (k & q & _ & _ & ->). exact I. }
    apply in_app_iff in H as [H|H].
    { destruct en as [en|]; [|destruct H]. destruct H as [<-|[]].
      destruct He as (i1 & s1 & s2 & y & _ & _ & _ & ->). exact I. }
    unfold dimensions_are in Hd. destruct (find_kid (u "segment") xe) as [seg|]; [|subst ds; destruct H].
    destruct Hd as (rs & Hrs & ->). apply somes_in in H.
    assert (Hk : exists k, dimension_is (explicit_shared rep docs) (typed_shared rep docs) k (Some c)).
    { clear -Hrs H. induction Hrs as [|k r ks rs Hk Hks IH]; [destruct H|].
      destruct H as [->|H]; [eauto|apply IH, H]. }
    destruct Hk as (k & [[_ Hk]|(_ & _ & Hk)]).
    + destruct Hk as (dt & mt & d & m & dt' & mt' & d' & m' & y & _ & _ & Hw & _ & ->).
      destruct Hw as (_ & _ & _ & (q1 & _ & H1) & (q2 & _ & H2)). cbn [char_elements].
      split; [exact (typed _ _ _ H1)|exact (typed _ _ _ H2)].
    + destruct Hk as (dt & v & d & dt' & v' & d' & y & _ & _ & Hw & _ & ->).
      destruct Hw as (_ & _ & q1 & _ & H1). cbn [char_elements]. exact (typed _ _ _ H1).
Qed.

Lemma shared_ok docs i x f :
  fact_as (concept_shared rep docs) (unit_shared docs) (entity_shared docs) (period_shared parse_date)
    (explicit_shared rep docs) (typed_shared rep docs) i x f -> ctx_ok (f_context f).
Proof.
  intros (cid & xc & e & us & _ & _ & _ & _ & (id & xp & xe & p & en & ds & _ & _ & _ & _ & _ & _ & Hx) & _). rewrite Hx.
  apply fold_ok, new_ok.
Qed.

Lemma shared_concept docs i x f :
  fact_as (concept_shared rep docs) (unit_shared docs) (entity_shared docs) (period_shared parse_date)
    (explicit_shared rep docs) (typed_shared rep docs) i x f ->
  exists e, get_characteristic (f_context f) a_concept = Some (ChConcept e).
Proof.
  intros (cid & xc & e & us & _ & _ & H3 & _ & (id & xp & xe & p & en & ds & _ & _ & _ & _ & _ & _ & Hc) & _).
  exists e. rewrite Hc. apply first_concept.
Qed.
End FactElements.

(** ** The stages of reading *)

Section Stages.
Variable parse_date : str -> res date.
Variable element_str : xml -> str.
Variable number : str -> Q.
Variable edge_order : nat -> list NetModel.edge -> list NetModel.edge.
Variable root_order : nat -> list nat -> list nat.
Variable fuel : nat.
Variable shuffle : list nat -> list nat.

Lemma filing_stages trees es f :
  parse_filing parse_date element_str number edge_order root_order fuel shuffle trees es = Ok f ->
  exists reg es1 s,
    NoDup (map ConceptModel.r_name reg) /\
    ConceptModel.parse_report_elements trees (ConceptModel.empty_rrepo, es) = Ok (ConceptLoad.stored reg, es1) /\
    parse_facts parse_date (repository_of (ConceptLoad.stored reg)) (nillable_in (ConceptLoad.stored reg))
      (dict_values trees) (State es1 [] [] empty_facts) = Ok (tt, s) /\
    read_networks element_str number edge_order root_order fuel shuffle (ConceptLoad.stored reg) (s_facts s)
      (dict_values trees) (s_errors s) = Ok (fl_nets f, fl_links f) /\
    CompModel.parse_components (store_networks (fl_nets f)) (dict_values trees) (LinkModel.ls_errors (fl_links f)) =
      Ok (fl_components f, fl_errors f) /\
    fl_elements f = ConceptLoad.stored reg /\ fl_facts f = s_facts s /\ fl_networks f = store_networks (fl_nets f) /\
    fl_namespaces f = namespaces_of (dict_values trees).
Proof.
  unfold parse_filing. cbv zeta.
  destruct (ConceptModel.parse_report_elements trees (ConceptModel.empty_rrepo, es)) as [[r es1]|] eqn:E1; [|discriminate]. cbn [bind fst snd].
  destruct (parse_facts _ _ _ _ _) as [[[] s]|] eqn:E2; [|discriminate]. cbn [bind fst snd].
  destruct (read_networks _ _ _ _ _ _ _ _ _ _) as [[ws st]|] eqn:E3; [|discriminate]. cbn [bind fst snd].
  destruct (read_tables _ _ _ _) as [t|] eqn:E4; [|discriminate]. cbn [bind fst snd].
  destruct (CompModel.parse_components _ _ _) as [[cs es2]|] eqn:E5; [|discriminate]. cbn [bind fst snd].
  intros [= <-]. cbn [fl_elements fl_facts fl_nets fl_links fl_networks fl_components fl_namespaces fl_errors].
  pose proof (elements_stored _ _ _ E1) as (reg & Hn & Hr). cbn [fst] in Hr. subst r.
  exists reg, es1, s. repeat (split; [first [assumption|reflexivity]|]). reflexivity.
Qed.

Lemma start_inv rep docs es : inv parse_date rep docs (State es [] [] empty_facts).
Proof. split; cbn; intros; discriminate. Qed.
End Stages.

(** ** Networks *)

Lemma stored_upserts l : CompSpec.stored (map CompModel.OpUpsert l) = l.
Proof. unfold CompSpec.stored. induction l as [|x l IH]; [reflexivity|]. cbn. rewrite IH. reflexivity. Qed.

Lemma upsert_network_perm r n : CompProofs.nrepo_ok r ->
  Permutation (concat (map snd (CompModel.upsert_network r n))) (concat (map snd r) ++ [n]).
Proof.
  intros [Hk _]. unfold CompModel.upsert_network, CompModel.get_by_type.
  set (c := CompModel.n_class n). destruct (dict_get CompModel.nclass_eqb r c) as [l|] eqn:E.
  - revert E Hk. induction r as [|[k v] r IH]; cbn [dict_get dict_set]; [discriminate|].
    destruct (CompProofs.nclass_eqb_spec k c) as [->|N].
    + intros [= ->] _. cbn [map concat snd]. rewrite <- !app_assoc. apply Permutation_app_head, Permutation_app_comm.
    + intros E Hk. cbn [map concat snd]. rewrite <- app_assoc. apply Permutation_app_head, IH; [exact E|].
      inversion Hk; assumption.
  - apply (dict_get_none _ CompProofs.nclass_eqb_spec) in E.
    rewrite (dict_set_keys_new _ CompProofs.nclass_eqb_spec r c []) by exact E.
    assert (H : forall d, ~ In c (dict_keys d) ->
      dict_set CompModel.nclass_eqb (d ++ [(c, [])]) c [n] = d ++ [(c, [n])]).
    { induction d as [|[k v] d IH]; intros Hd.
      - cbn. destruct (CompProofs.nclass_eqb_spec c c); [reflexivity|contradiction].
      - cbn [app dict_set]. destruct (CompProofs.nclass_eqb_spec k c) as [->|N]; [exfalso; apply Hd; left; reflexivity|].
        rewrite IH; [reflexivity|]. intros Hi. apply Hd. right. exact Hi. }
    change ([] ++ [n]) with [n]. rewrite H by exact E. rewrite map_app, concat_app. cbn. apply Permutation_refl.
Qed.

Lemma store_networks_perm ws : Permutation (concat (map snd (store_networks ws))) (networks_of ws).
Proof.
  unfold store_networks, CompModel.networks_after. generalize (networks_of ws). clear ws.
  induction l as [|n l IH] using rev_ind; [constructor|].
  rewrite map_app, fold_left_app. cbn [map fold_left CompModel.nstep].
  etransitivity; [apply upsert_network_perm, (CompProofs.networks_after_ok (map CompModel.OpUpsert l))|].
  apply Permutation_app_tail, IH.
Qed.

Lemma networks_of_nth ws n : In n (networks_of ws) <->
  exists w, nth_error ws (CompModel.n_object n) = Some w /\ n = network_of (CompModel.n_object n, w).
Proof.
  unfold networks_of. rewrite in_map_iff. split.
  - intros ([i w] & <- & H). cbn [network_of fst snd CompModel.n_object].
    apply (In_nth_error) in H as (j & H). exists w. split; [|reflexivity].
    assert (E : forall b (l : list LinkModel.net) j i w, nth_error (combine (seq b (length l)) l) j = Some (i, w) -> i = b + j /\ nth_error l j = Some w).
    { clear. intros b l. revert b. induction l as [|x l IH]; intros b [|j] i w; cbn; try discriminate.
      - intros [= -> ->]. split; [lia|reflexivity].
      - intros H. apply IH in H as [-> H]. split; [lia|exact H]. }
    apply E in H as [-> H]. exact H.
  - intros (w & Hw & En). exists (CompModel.n_object n, w). split; [symmetry; exact En|].
    assert (E : forall b (l : list LinkModel.net) j w, nth_error l j = Some w -> In (b + j, w) (combine (seq b (length l)) l)).
    { clear. intros b l. revert b. induction l as [|x l IH]; intros b [|j] w; cbn; try discriminate.
      - intros [= ->]. left. f_equal. lia.
      - intros H. right. replace (b + S j) with (S b + j) by lia. apply IH, H. }
    apply (E 0), Hw.
Qed.

Lemma networks_of_at ws i : nth_error (networks_of ws) i = option_map (fun w => network_of (i, w)) (nth_error ws i).
Proof.
  unfold networks_of. rewrite nth_error_map.
  assert (E : forall b (l : list LinkModel.net) j, nth_error (combine (seq b (length l)) l) j = option_map (pair (b + j)) (nth_error l j)).
  { clear. intros b l. revert b. induction l as [|x l IH]; intros b [|j]; cbn; try reflexivity.
    - rewrite Nat.add_0_r. reflexivity.
    - rewrite IH. replace (S b + j) with (b + S j) by lia. reflexivity. }
  rewrite E. destruct (nth_error ws i); reflexivity.
Qed.

(** A place of a list that is filtered without repetition *)
Lemma filtered_once {A B} (p : A -> bool) (g : A -> B) l i j x y : NoDup (map g (filter p l)) ->
  nth_error l i = Some x -> nth_error l j = Some y -> p x = true -> p y = true -> g x = g y -> i = j.
Proof.
  revert i j. induction l as [|a l IH]; intros [|i] [|j] Hn Hi Hj Px Py E; cbn in Hi, Hj; try discriminate; [reflexivity| | |].
  - exfalso. injection Hi as ->. cbn [filter] in Hn. rewrite Px in Hn. inversion Hn as [|? ? H _]; subst. apply H. rewrite E.
    apply in_map, filter_In. split; [eapply nth_error_In, Hj|exact Py].
  - exfalso. injection Hj as ->. cbn [filter] in Hn. rewrite Py in Hn. inversion Hn as [|? ? H _]; subst. apply H. rewrite <- E.
    apply in_map, filter_In. split; [eapply nth_error_In, Hi|exact Px].
  - f_equal. apply IH; try assumption. cbn [filter] in Hn. destruct (p a); [inversion Hn; assumption|exact Hn].
Qed.

(** What the classes of components mean *)
Lemma class_presentation role i w : CompSpec.of_class CompModel.NPresentation role (network_of (i, w)) <->
  LinkModel.w_kind w = NetModel.KPresentation /\ LinkModel.w_role w = role.
Proof.
  unfold CompSpec.of_class. cbn [network_of CompModel.n_class CompModel.n_role fst snd]. unfold nclass_of.
  destruct (LinkModel.w_kind w); cbn [LinkModel.class_of_kind]; intuition (try congruence; try discriminate).
Qed.
Lemma class_calculation role i w : CompSpec.of_class CompModel.NCalculation role (network_of (i, w)) <->
  LinkModel.w_kind w = NetModel.KCalculation /\ LinkModel.w_role w = role.
Proof.
  unfold CompSpec.of_class. cbn [network_of CompModel.n_class CompModel.n_role fst snd]. unfold nclass_of.
  destruct (LinkModel.w_kind w); cbn [LinkModel.class_of_kind]; intuition (try congruence; try discriminate).
Qed.
Lemma class_definition role i w : CompSpec.logical_definition role (network_of (i, w)) <->
  LinkModel.w_kind w = NetModel.KLogicalDefinition /\ LinkModel.w_role w = role.
Proof.
  unfold CompSpec.logical_definition, CompSpec.of_class.
  cbn [network_of CompModel.n_class CompModel.n_role CompModel.n_physical fst snd]. unfold nclass_of.
  destruct (LinkModel.w_kind w); cbn [LinkModel.class_of_kind NetModel.is_physical]; intuition (try congruence; try discriminate).
Qed.
Lemma class_any_definition role i w : CompSpec.of_class CompModel.NDefinition role (network_of (i, w)) <->
  (LinkModel.w_kind w = NetModel.KPhysicalDefinition \/ LinkModel.w_kind w = NetModel.KLogicalDefinition) /\ LinkModel.w_role w = role.
Proof.
  unfold CompSpec.of_class. cbn [network_of CompModel.n_class CompModel.n_role fst snd]. unfold nclass_of.
  destruct (LinkModel.w_kind w); cbn [LinkModel.class_of_kind]; intuition (try congruence; try discriminate).
Qed.

Section Components.
Variable f : filing.
Hypothesis all : incl (networks_of (fl_nets f)) (get_all_networks f).
Hypothesis once : NoDup (map (fun w => (LinkModel.w_kind w, LinkModel.w_role w)) (filter LinkNetProofs.logical (fl_nets f))).
Variable k : NetModel.kind.
Hypothesis logical : NetModel.is_physical k = false.
Variable role : str.
Variable P : CompModel.network -> Prop.
Hypothesis means : forall i w, P (network_of (i, w)) <-> LinkModel.w_kind w = k /\ LinkModel.w_role w = role.

Lemma only_place i j w w' : nth_error (fl_nets f) i = Some w -> nth_error (fl_nets f) j = Some w' ->
  LinkModel.w_kind w = k -> LinkModel.w_role w = role -> LinkModel.w_kind w' = k -> LinkModel.w_role w' = role -> i = j.
Proof.
  intros Hi Hj Kw Rw Kw' Rw'.
  apply (filtered_once LinkNetProofs.logical _ (fl_nets f) i j w w' once Hi Hj); [| |congruence];
    unfold LinkNetProofs.logical, LinkModel.physical; rewrite ?Kw, ?Kw', logical; reflexivity.
Qed.

Lemma first_is_the n : CompSpec.first_such P (networks_of (fl_nets f)) n -> the_network f k role n.
Proof.
  destruct n as [n|]; cbn [CompSpec.first_such the_network].
  - intros (l1 & l2 & E & Hp & _).
    assert (Hin : In n (networks_of (fl_nets f))) by (rewrite E; apply in_or_app; right; left; reflexivity).
    split; [exact (all _ Hin)|].
    apply networks_of_nth in Hin as (w & Hw & En). exists w. split; [exact Hw|].
    rewrite En in Hp. apply means in Hp as [Hk Hr]. split; [split; [eapply nth_error_In, Hw|auto]|].
    intros i w' Hi Hk' Hr'. eapply only_place; eassumption.
  - rewrite Forall_forall. intros H w (Hw & Hk & Hr). apply In_nth_error in Hw as (i & Hi).
    apply (H (network_of (i, w))); [|apply means; auto].
    apply networks_of_nth. exists w. auto.
Qed.

Lemma never_twice : ~ CompSpec.twice P (networks_of (fl_nets f)).
Proof.
  intros (l1 & a & l2 & b & l3 & E & Ha & Hb).
  assert (A : nth_error (networks_of (fl_nets f)) (length l1) = Some a).
  { rewrite E, nth_error_app2 by lia. rewrite Nat.sub_diag. reflexivity. }
  assert (B : nth_error (networks_of (fl_nets f)) (length l1 + S (length l2)) = Some b).
  { rewrite E, nth_error_app2 by lia. replace (length l1 + S (length l2) - length l1) with (S (length l2)) by lia.
    cbn [nth_error]. rewrite nth_error_app2 by lia. rewrite Nat.sub_diag. reflexivity. }
  rewrite networks_of_at in A, B.
  destruct (nth_error (fl_nets f) (length l1)) as [w|] eqn:Ew; [|discriminate A].
  destruct (nth_error (fl_nets f) (length l1 + S (length l2))) as [w'|] eqn:Ew'; [|discriminate B].
  injection A as <-. injection B as <-. apply means in Ha as [K1 R1]. apply means in Hb as [K2 R2].
  pose proof (only_place _ _ _ _ Ew Ew' K1 R1 K2 R2). lia.
Qed.
End Components.
