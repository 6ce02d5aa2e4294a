(** Equality of the objects of a report (C114). *)
From Coq Require Import QArith.
From Verif Require Import Base QNameModel QNameProofs CtxModel CtxSpec CtxExactProofs CalcModel EqModel EqSpec.
Local Open Scope nat_scope.

Lemma qname_eqb_eq a b : qname_eqb a b = true <-> a = b.
Proof. destruct (qname_eqb_spec a b); intuition congruence. Qed.
Lemma clark_inj i s j t : ~ In (ch "}") s -> ~ In (ch "}") t ->
  value_str (ChEntity i s) = value_str (ChEntity j t) -> i = j /\ s = t.
Proof.
  cbn [value_str]. change (u "{" ++ s ++ u "}" ++ i) with (ch "{" :: s ++ ch "}" :: i).
  change (u "{" ++ t ++ u "}" ++ j) with (ch "{" :: t ++ ch "}" :: j).
  intros Hs Ht E. injection E as E. destruct (split_unique (ch "}") s i t j Hs Ht E) as [A B]. auto.
Qed.

Local Opaque value_str period_str.

(** What is compared *)
Inductive key := KName (q : qname) | KAspect (s : str) | KEntity (s : str) | KPeriod (s : str) | KUnit (s : str)
  | KExplicit (n : nat) (s : str) | KTyped (n : nat) (v s : str) | KContext (s : str) | KAt (n : nat).
Definition key_of (x : object) : key :=
  match o_is x with
  | IsConcept q => KName q | IsAspect s => KAspect s | IsEntity i s => KEntity (value_str (ChEntity i s))
  | IsPeriod p => KPeriod (period_str p) | IsUnit n _ _ => KUnit n | IsExplicit _ m a => KExplicit (r_at m) a
  | IsTyped d v a => KTyped (r_at d) v a | IsContext c => KContext (c_id c)
  | IsElement _ _ | IsConceptChar _ | IsFact _ => KAt (o_at x)
  end.
Lemma KEntity_inj a b : KEntity a = KEntity b -> a = b.
Proof. congruence. Qed.
Lemma KPeriod_inj a b : KPeriod a = KPeriod b -> a = b.
Proof. congruence. Qed.
Lemma eq_key x y : py_eq x y = true <-> key_of x = key_of y.
Proof.
  destruct x as [i x], y as [j y]. unfold py_eq, key_of. cbn [o_is o_at].
  destruct x, y; cbn [eq_method];
    try (split; intros E; discriminate E);
    rewrite ?andb_true_iff, ?str_eqb_eq, ?qname_eqb_eq, ?Nat.eqb_eq;
    [>intuition congruence ..].
Qed.

(** ** [==] is an equivalence *)

Theorem C114_reflexive x : py_eq x x = true.
Proof. apply eq_key. reflexivity. Qed.
Theorem C114_symmetric x y : py_eq x y = py_eq y x.
Proof. apply eq_iff_eq_true. rewrite !eq_key. split; congruence. Qed.
Theorem C114_transitive x y z : py_eq x y = true -> py_eq y z = true -> py_eq x z = true.
Proof. rewrite !eq_key. congruence. Qed.

(** Objects of different classes are never equal. *)
Theorem C114_classes x y : apart x y -> py_eq x y = true -> class_of x = class_of y.
Proof.
  intros Ha H. apply eq_key in H. destruct x as [i x], y as [j y]. unfold key_of, class_of in *. cbn [o_is o_at] in *.
  destruct x, y; try discriminate H; try reflexivity; injection H as ->; specialize (Ha eq_refl); injection Ha; intros; try discriminate; subst; reflexivity.
Qed.

(** Objects of one filing that are no unit, concept characteristic or context are equal exactly if they state the same. *)
Theorem C114_same_partial x y : plain x -> plain y -> one_filing x y -> (py_eq x y = true <-> same x y).
Proof.
  intros Hx Hy [Ha Hr He Hd]. rewrite eq_key. destruct x as [i x], y as [j y].
  unfold plain, key_of, refers, apart in *. cbn [o_is o_at] in *. split.
  - intros E. destruct x, y; try discriminate E; try contradiction;
      first [apply KEntity_inj in E|apply KPeriod_inj in E|injection E as E];
      try (specialize (Ha E); injection Ha; intros; try discriminate; subst); subst; try constructor.
    + apply clark_inj in E as [<- <-]; [constructor|assumption|assumption].
    + apply period_str_inj in E as <-; [constructor|assumption|assumption].
    + eapply Hd; reflexivity.
    + apply Hr; auto.
    + apply Hr; auto.
  - intros H. inversion H; subst; try reflexivity; try contradiction.
    + f_equal. eapply He; reflexivity.
    + f_equal. apply Hr; auto.
    + f_equal. apply Hr; auto.
Qed.

(** Dates, schemes and names: what makes two values equal, for all texts *)
Theorem C114_texts i j : (forall a s b t, py_eq (At i (IsEntity a s)) (At j (IsEntity b t)) = true <->
                          u "{" ++ s ++ u "}" ++ a = u "{" ++ t ++ u "}" ++ b) /\
  (forall n ns ds m ms es, py_eq (At i (IsUnit n ns ds)) (At j (IsUnit m ms es)) = true <-> n = m) /\
  (forall c d, py_eq (At i (IsConceptChar c)) (At j (IsConceptChar d)) = true <-> i = j) /\
  (forall c d, py_eq (At i (IsContext c)) (At j (IsContext d)) = true <-> c_id c = c_id d).
Proof.
  split; [|split; [|split]]; intros; rewrite eq_key; unfold key_of; cbn [o_is o_at].
  - split; [intros E; exact (KEntity_inj _ _ E)|].
    change (u "{" ++ s ++ u "}" ++ a) with (value_str (ChEntity a s)).
    change (u "{" ++ t ++ u "}" ++ b) with (value_str (ChEntity b t)). intros ->. reflexivity.
  - split; congruence.
  - split; congruence.
  - split; congruence.
Qed.

(** Units are equal exactly if they have the same measures where no two units have one name and no two names
    the same measures. *)
Theorem C114_units_partial i j n ns ds m ms es : (n = m <-> ns = ms /\ ds = es) ->
  py_eq (At i (IsUnit n ns ds)) (At j (IsUnit m ms es)) = true <-> same (At i (IsUnit n ns ds)) (At j (IsUnit m ms es)).
Proof.
  intros H. destruct (C114_texts i j) as (_ & -> & _). rewrite H. split.
  - intros [-> ->]. constructor.
  - intros X. inversion X. auto.
Qed.

(** The contexts of two facts of an instance are equal exactly if the elements name the same context,
    whatever their concepts and units are. *)
Theorem C114_contexts_of_facts C U E P X T i x f j y g a b :
  fact_as C U E P X T i x f -> fact_as C U E P X T j y g ->
  (py_eq (At a (IsContext (f_context f))) (At b (IsContext (f_context g))) = true <->
   attr x (u "contextRef") = attr y (u "contextRef")).
Proof.
  intros (cid & xc & e & us & H1 & _ & _ & _ & _ & H2 & _) (cid' & xc' & e' & us' & K1 & _ & _ & _ & _ & K2 & _).
  destruct (C114_texts a b) as (_ & _ & _ & ->). rewrite H1, K1, H2, K2. split; congruence.
Qed.

(** The characteristics that calculations compare: by names, as in CalcModel. *)
Theorem C114_calculation x y c d : denotes x c -> denotes y d -> one_filing x y -> py_eq x y = char_eqb c d.
Proof.
  intros Hx Hy [_ Hr _ _]. apply eq_iff_eq_true. rewrite eq_key. unfold refers in Hr.
  destruct Hx, Hy; unfold key_of; cbn [o_is o_at char_eqb] in *; try (split; intros; discriminate);
    unfold period_eqb; rewrite ?andb_true_iff, ?str_eqb_eq, ?qname_eqb_eq.
  - split; [intros Eq; exact (KEntity_inj _ _ Eq)|intros ->; reflexivity].
  - split; [intros Eq; exact (KPeriod_inj _ _ Eq)|intros ->; reflexivity].
  - split; congruence.
  - assert (Hm := Hr m m0 (or_intror eq_refl) (or_intror eq_refl)). rewrite <- H0, <- H2.
    split; [intros Eq; injection Eq as Eq ->; split; [apply Hm, Eq|reflexivity]|intros [Eq ->]; apply Hm in Eq; rewrite Eq; reflexivity].
  - assert (Hm := Hr _ _ eq_refl eq_refl). rewrite <- H, <- H0.
    split; [intros Eq; injection Eq as Eq -> ->; split; [split; [apply Hm, Eq|]|]; reflexivity|].
    intros [[Eq ->] ->]; apply Hm in Eq; rewrite Eq; reflexivity.
Qed.

(** [x in l]: an equal object is in the list. *)
Theorem C114_in x l : (forall y, In y l -> apart y x) -> (py_in x l = true <-> exists y, In y l /\ py_eq y x = true).
Proof.
  intros Ha. unfold py_in. rewrite existsb_exists. split.
  - intros (y & Hy & H). exists y. split; [exact Hy|]. apply orb_true_iff in H as [H|H]; [|exact H].
    apply Nat.eqb_eq in H. rewrite (Ha y Hy H). apply C114_reflexive.
  - intros (y & Hy & H). exists y. split; [exact Hy|]. rewrite H, orb_true_r. reflexivity.
Qed.

Section Hash.
Variable hash_str : str -> Z.
Variable hash_at : nat -> Z.

(** Which objects can be in a set *)
Theorem C114_hashable x : (hashable x -> exists h, py_hash hash_str hash_at x = Ok h) /\
  (~ hashable x -> py_hash hash_str hash_at x = Raise TypeError).
Proof. destruct x as [i x]. unfold hashable, class_of, py_hash. destruct x; cbn; split; eauto; tauto. Qed.

(** Equal objects have the same hash or none. *)
Theorem C114_hash_agrees x y : py_eq x y = true -> py_hash hash_str hash_at x = py_hash hash_str hash_at y.
Proof.
  rewrite eq_key. destruct x as [i x], y as [j y]. unfold key_of, py_hash. cbn [o_is o_at].
  destruct x, y; intros H; try discriminate H; cbn [eq_method]; congruence.
Qed.

Lemma set_has_spec l x h : py_hash hash_str hash_at x = Ok h -> (forall y, In y l -> apart y x) ->
  set_has hash_str hash_at l x h = true <-> exists y, In y l /\ py_eq y x = true.
Proof.
  intros Hh Ha. unfold set_has. rewrite existsb_exists. split.
  - intros (y & Hy & H). exists y. split; [exact Hy|]. destruct (py_hash hash_str hash_at y) as [h'|]; [|discriminate].
    apply andb_true_iff in H as [_ H]. apply orb_true_iff in H as [H|H]; [|exact H].
    apply Nat.eqb_eq in H. rewrite (Ha y Hy H). apply C114_reflexive.
  - intros (y & Hy & H). exists y. split; [exact Hy|]. rewrite (C114_hash_agrees _ _ H), Hh, H, Z.eqb_refl, orb_true_r. reflexivity.
Qed.

Definition equal (x y : object) : Prop := py_eq x y = true.
Lemma each_in R l r : one_of_each R l r -> forall x, In x r -> In x l.
Proof.
  induction 1 as [|l r x H IH Hn|l r x y H IH Hy Hr]; intros z Hz; [destruct Hz|rewrite in_app_iff in *|apply in_app_iff; auto].
  destruct Hz as [Hz|Hz]; [left; auto|right; exact Hz].
Qed.
Lemma each_equal l r : one_of_each equal l r -> forall x, In x l -> exists y, In y r /\ equal y x.
Proof.
  induction 1 as [|l r x H IH Hn|l r x y H IH Hy Hr]; intros z Hz; [destruct Hz|apply in_app_iff in Hz..].
  - destruct Hz as [Hz|[<-|[]]].
    + destruct (IH z Hz) as (w & Hw & E). exists w. split; [apply in_app_iff; auto|exact E].
    + exists x. split; [apply in_app_iff; right; left; reflexivity|apply C114_reflexive].
  - destruct Hz as [Hz|[<-|[]]]; [apply IH, Hz|]. destruct (IH y Hy) as (w & Hw & E). exists w. split; [exact Hw|].
    exact (C114_transitive _ _ _ E Hr).
Qed.
Lemma set_of_spec l : forall done acc, one_of_each equal done acc -> (forall x y, In x (done ++ l) -> In y (done ++ l) -> apart x y) ->
  (forall x, In x l -> hashable x) ->
  exists r, set_of hash_str hash_at l acc = Ok r /\ one_of_each equal (done ++ l) r.
Proof.
  induction l as [|x l IH]; intros done acc Hacc Ha Hh; cbn [set_of].
  - exists acc. rewrite app_nil_r. auto.
  - destruct (proj1 (C114_hashable x) (Hh x (or_introl eq_refl))) as [h E]. unfold set_add. rewrite E. cbn [bind].
    assert (Hx : In x (done ++ x :: l)) by (apply in_app_iff; right; left; reflexivity).
    assert (Hin := set_has_spec acc x h E (fun y Hy => Ha y x (proj2 (in_app_iff _ _ _) (or_introl (each_in _ _ _ Hacc y Hy))) Hx)).
    replace (done ++ x :: l) with ((done ++ [x]) ++ l) in * by (rewrite <- app_assoc; reflexivity).
    apply IH; [|exact Ha|intros y Hy; apply Hh; right; exact Hy].
    destruct (set_has hash_str hash_at acc x h).
    + destruct (proj1 Hin eq_refl) as (y & Hy & Ey). apply each_old with (y := y); [exact Hacc|exact (each_in _ _ _ Hacc y Hy)|exact Ey].
    + apply each_new; [exact Hacc|]. intros y Hy Ey. destruct (each_equal _ _ Hacc y Hy) as (z & Hz & Ez).
      assert (X : false = true) by (apply Hin; exists z; split; [exact Hz|exact (C114_transitive _ _ _ Ez Ey)]). discriminate X.
Qed.

(** A set of aspects, facts, concept characteristics or report elements other than concepts has one of each. *)
Theorem C114_set_partial l : (forall x y, In x l -> In y l -> apart x y) -> (forall x, In x l -> hashable x) ->
  exists r, set_of hash_str hash_at l [] = Ok r /\ one_of_each equal l r.
Proof. intros Ha Hh. exact (set_of_spec l [] [] (each_nil _) Ha Hh). Qed.

(** Concepts, contexts and the other characteristics cannot be in a set. *)
Theorem C114_set_refuted l x : In x l -> ~ hashable x -> set_of hash_str hash_at l [] = Raise TypeError.
Proof.
  intros Hx Hn. assert (H : forall acc, set_of hash_str hash_at l acc = Raise TypeError); [|apply H].
  induction l as [|y l IH]; [destruct Hx|]. intros acc. cbn [set_of]. unfold set_add.
  destruct Hx as [->|Hx].
  - rewrite (proj2 (C114_hashable x) Hn). reflexivity.
  - assert (D : hashable y \/ ~ hashable y) by (unfold hashable; destruct (class_of y); tauto).
    destruct D as [D|D]; [destruct (proj1 (C114_hashable y) D) as [h ->]; cbn [bind]; apply IH, Hx
                        |rewrite (proj2 (C114_hashable y) D); reflexivity].
Qed.
End Hash.

(** Contexts are equal though they have different characteristics, and differ though they have the same. *)
Theorem C114_contexts_refuted : exists c d e,
  py_eq (At 1 (IsContext c)) (At 2 (IsContext d)) = true /\ ~ same (At 1 (IsContext c)) (At 2 (IsContext d)) /\
  py_eq (At 1 (IsContext c)) (At 3 (IsContext e)) = false /\ same (At 1 (IsContext c)) (At 3 (IsContext e)).
Proof.
  set (x := ChPeriod (Instant (Date 2020 12 31))). set (y := ChPeriod (Instant (Date 2021 12 31))).
  exists (add_characteristic (new_context (u "c1")) x), (add_characteristic (new_context (u "c1")) y), (add_characteristic (new_context (u "c2")) x).
  split; [vm_compute; reflexivity|]. split; [|split; [vm_compute; reflexivity|constructor; reflexivity]].
  intros H. inversion H as [| | | | | | | | |? ? ? ? Hc|]; subst. specialize (Hc a_period x).
  assert (X : In (a_period, x) [(a_period, y)]) by (apply Hc; left; reflexivity). destruct X as [X|[]]. discriminate X.
Qed.

(** Units with the same name and other measures are equal, units with the same measures and other names are not. *)
Theorem C114_units_refuted : exists a b c,
  py_eq (At 1 (IsUnit (u "U") [a] [])) (At 2 (IsUnit (u "U") [b] [c])) = true /\
  ~ same (At 1 (IsUnit (u "U") [a] [])) (At 2 (IsUnit (u "U") [b] [c])) /\
  py_eq (At 1 (IsUnit (u "U") [a] [])) (At 3 (IsUnit (u "V") [a] [])) = false /\
  same (At 1 (IsUnit (u "U") [a] [])) (At 3 (IsUnit (u "V") [a] [])).
Proof.
  exists (QName (u "http://www.xbrl.org/2003/iso4217") (u "iso4217") (u "USD")),
         (QName (u "http://www.xbrl.org/2003/iso4217") (u "iso4217") (u "EUR")),
         (QName (u "http://www.xbrl.org/2003/instance") (u "xbrli") (u "shares")).
  split; [vm_compute; reflexivity|]. split; [|split; [vm_compute; reflexivity|constructor]].
  intros H. inversion H.
Qed.

(** Two concept characteristics of one concept are not equal. *)
Theorem C114_concept_characteristics_refuted c i j : i <> j ->
  py_eq (At i (IsConceptChar c)) (At j (IsConceptChar c)) = false /\ same (At i (IsConceptChar c)) (At j (IsConceptChar c)).
Proof.
  intros H. split; [|constructor; reflexivity]. apply not_true_is_false. destruct (C114_texts i j) as (_ & _ & -> & _). exact H.
Qed.

(** Entities with a brace in the scheme: two entities with one text. *)
Theorem C114_entities_refuted : exists a s b t, (a, s) <> (b, t) /\ py_eq (At 1 (IsEntity a s)) (At 2 (IsEntity b t)) = true.
Proof. exists (u "b}c"), (u "a"), (u "c"), (u "a}b"). split; [intros E; discriminate E|vm_compute; reflexivity]. Qed.

(** Explicit dimensions of two filings: the same dimension and member, and not equal. *)
Theorem C114_filings_refuted d m d' m' a : r_at m <> r_at m' -> r_name d = r_name d' -> r_name m = r_name m' ->
  py_eq (At 1 (IsExplicit d m a)) (At 2 (IsExplicit d' m' a)) = false /\
  same (At 1 (IsExplicit d m a)) (At 2 (IsExplicit d' m' a)).
Proof.
  intros H E1 E2. split; [|constructor; assumption]. apply not_true_is_false. rewrite eq_key. unfold key_of. cbn [o_is]. congruence.
Qed.

(** ** Cases *)

Definition s_dim : ref := Ref 10 (QName (u "urn:t") (u "t") (u "RegionAxis")).
Definition s_mem : ref := Ref 11 (QName (u "urn:t") (u "t") (u "EuropeMember")).
Definition s_mem' : ref := Ref 12 (QName (u "urn:t") (u "t") (u "AsiaMember")).
Definition s_list : list object :=
  [At 1 (IsAspect (u "period")); At 2 (IsElement KMember (r_name s_mem)); At 3 (IsAspect (u "period"));
   At 4 (IsElement KMember (r_name s_mem)); At 2 (IsElement KMember (r_name s_mem))].

(** The hypotheses of [C114_same_partial] can be met, with members that are and members that are not equal. *)
Example C114_same_case : one_filing (At 1 (IsExplicit s_dim s_mem (u "t:RegionAxis"))) (At 2 (IsExplicit s_dim s_mem' (u "t:RegionAxis"))) /\
  plain (At 1 (IsExplicit s_dim s_mem (u "t:RegionAxis"))) /\ plain (At 1 (IsPeriod (Instant (Date 2020 12 31)))) /\
  py_eq (At 1 (IsExplicit s_dim s_mem (u "t:RegionAxis"))) (At 2 (IsExplicit s_dim s_mem' (u "t:RegionAxis"))) = false /\
  py_eq (At 1 (IsExplicit s_dim s_mem (u "t:RegionAxis"))) (At 2 (IsExplicit s_dim s_mem (u "t:RegionAxis"))) = true /\
  py_eq (At 1 (IsPeriod (Instant (Date 2020 12 31)))) (At 2 (IsPeriod (Instant (Date 2020 12 31)))) = true /\
  denotes (At 1 (IsExplicit s_dim s_mem (u "t:RegionAxis"))) (ChExplicit (Element (r_name s_dim) None KDimension 0) (Element (r_name s_mem) None KMember 1) (u "t:RegionAxis")).
Proof.
  split; [|split; [exact I|split; [vm_compute; repeat split; discriminate|split; [vm_compute; reflexivity|split; [vm_compute; reflexivity|split; [vm_compute; reflexivity|constructor; reflexivity]]]]]].
  split.
  - intros E. discriminate E.
  - cbn [refers o_is]. intros r s [->| ->] [->| ->]; split; intros E; try reflexivity; discriminate E.
  - intros ? ? ? ? E. discriminate E.
  - cbn [o_is]. intros ? ? ? ? ? ? E E' _. injection E as <- _ _. injection E' as <- _ _. reflexivity.
Qed.

Example C114_set_case : (forall x y, In x s_list -> In y s_list -> apart x y) /\ (forall x, In x s_list -> hashable x) /\
  set_of (fun _ => 7%Z) Z.of_nat s_list [] =
    Ok [At 1 (IsAspect (u "period")); At 2 (IsElement KMember (r_name s_mem)); At 4 (IsElement KMember (r_name s_mem))].
Proof.
  split; [|split; [|vm_compute; reflexivity]].
  - intros x y Hx Hy. unfold apart. repeat (destruct Hx as [<-|Hx]; [repeat (destruct Hy as [<-|Hy]; [cbn [o_at]; first [reflexivity|intros E; discriminate E]|]); destruct Hy|]). destruct Hx.
  - intros x Hx. repeat (destruct Hx as [<-|Hx]; [exact I|]). destruct Hx.
Qed.

Example C114_refuted_case : py_eq (At 1 (IsConcept (r_name s_mem))) (At 2 (IsConcept (r_name s_mem))) = true /\
  set_of (fun _ => 7%Z) Z.of_nat [At 1 (IsConcept (r_name s_mem))] [] = Raise TypeError /\
  py_in (At 8 (IsAspect (u "unit"))) s_list = false /\ py_in (At 9 (IsAspect (u "period"))) s_list = true.
Proof. split; [|split; [|split]]; vm_compute; reflexivity. Qed.

Print Assumptions C114_reflexive.
Print Assumptions C114_symmetric.
Print Assumptions C114_transitive.
Print Assumptions C114_classes.
Print Assumptions C114_same_partial.
Print Assumptions C114_texts.
Print Assumptions C114_units_partial.
Print Assumptions C114_contexts_of_facts.
Print Assumptions C114_calculation.
Print Assumptions C114_in.
Print Assumptions C114_hashable.
Print Assumptions C114_hash_agrees.
Print Assumptions C114_set_partial.
Print Assumptions C114_set_refuted.
Print Assumptions C114_contexts_refuted.
Print Assumptions C114_units_refuted.
Print Assumptions C114_concept_characteristics_refuted.
Print Assumptions C114_entities_refuted.
Print Assumptions C114_filings_refuted.
