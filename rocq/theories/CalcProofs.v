(** Proofs about the consistency checks of calculation networks. *)
From Verif Require Import Base NetModel QNameModel QNameProofs CtxModel CtxProofs CalcModel CalcSpec.
From Coq Require Import Lia.

Lemma in_network_trans h roots i j :
  in_network h roots i -> in_network h [i] j -> in_network h roots j.
Proof.
  intros Hi H. induction H as [j [<-|[]]|p c Hp IH Hc]; [exact Hi|].
  eapply in_child; [exact IH|exact Hc].
Qed.

Lemma in_network_split h roots j :
  in_network h roots j <-> exists i, In i roots /\ in_network h [i] j.
Proof.
  split.
  - induction 1 as [i Hi|p c Hp [r [Hr IH]] Hc].
    + exists i; split; [exact Hi|]. apply in_root; left; reflexivity.
    + exists r; split; [exact Hr|]. eapply in_child; eassumption.
  - intros (i & Hi & H). eapply in_network_trans; [apply in_root; exact Hi|exact H].
Qed.

Lemma in_network_step h i j :
  in_network h [i] j <-> j = i \/ exists c, In c (get_children h i) /\ in_network h [c] j.
Proof.
  split.
  - induction 1 as [k [<-|[]]|p c Hp IH Hc]; [left; reflexivity|].
    right. destruct IH as [->|(c' & Hc' & H)].
    + exists c; split; [exact Hc|]. apply in_root; left; reflexivity.
    + exists c'; split; [exact Hc'|]. eapply in_child; eassumption.
  - intros [->|(c & Hc & H)]; [apply in_root; left; reflexivity|].
    eapply in_network_trans; [|exact H]. eapply in_child; [|exact Hc]. apply in_root; left; reflexivity.
Qed.

Lemma all_ok_true check l : all_ok check l = Ok true <-> forall x, In x l -> check x = Ok true.
Proof.
  induction l as [|x l IH]; cbn [all_ok].
  - split; [intros _ y []|reflexivity].
  - split.
    + destruct (check x) as [[|]|e] eqn:E; cbn [bind]; try discriminate.
      intros H y [<-|Hy]; [exact E|]. apply IH; assumption.
    + intros H. rewrite (H x) by (left; reflexivity). cbn [bind].
      apply IH. intros y Hy. apply H; right; exact Hy.
Qed.

Lemma all_ok_total check l : (forall x, In x l -> exists b, check x = Ok b) -> exists b, all_ok check l = Ok b.
Proof.
  induction l as [|x l IH]; cbn [all_ok]; intros H; [exists true; reflexivity|].
  destruct (H x) as [b Eb]; [left; reflexivity|]. rewrite Eb. cbn [bind].
  destruct b; [|exists false; reflexivity]. apply IH. intros y Hy. apply H; right; exact Hy.
Qed.

Lemma Qltb_true a b : Qltb a b = true <-> (a < b)%Q.
Proof.
  unfold Qltb. rewrite Bool.negb_true_iff. split.
  - intros H. apply Qnot_le_lt. intros H'. apply Qle_bool_iff in H'. congruence.
  - intros H. destruct (Qle_bool b a) eqn:E; [|reflexivity]. apply Qle_bool_iff in E.
    exfalso. eapply Qlt_not_le; eassumption.
Qed.
Lemma Qltb_false a b : Qltb a b = false <-> (b <= a)%Q.
Proof. unfold Qltb. rewrite Bool.negb_false_iff. apply Qle_bool_iff. Qed.

Lemma balance_eqb_spec a b : reflect (a = b) (balance_eqb a b).
Proof. destruct a, b; constructor; congruence. Qed.

Section Balance.
Variable balance_of : obj -> option balance.
Variable h : heap.
Local Notation arc := (lenient_arc balance_of h).
Local Notation bal := (node_balance balance_of h).

Lemma balance_children_true check i pb kids : bal i = Some pb ->
  (balance_children balance_of h check pb kids = Ok true <->
   forall c, In c kids -> arc i c /\ check c = Ok true).
Proof.
  intros Hi. induction kids as [|c kids IH]; cbn [balance_children].
  - split; [intros _ y []|reflexivity].
  - destruct (node_balance balance_of h c) as [cb|] eqn:Ec.
    + assert (Harc : (if balance_eqb pb cb then Qltb (get_weight h c) 0 else Qltb 0 (get_weight h c)) = false
                     <-> arc i c).
      { destruct (balance_eqb_spec pb cb) as [->|Hn]; rewrite Qltb_false; split.
        - intros H. exists cb, cb. repeat split; auto.
        - intros (bp & bc & H1 & H2 & [[_ H]|[H _]]); [exact H|]. exfalso; apply H. congruence.
        - intros H. exists pb, cb. repeat split; auto.
        - intros (bp & bc & H1 & H2 & [[H _]|[_ H]]); [|exact H]. exfalso; apply Hn; congruence. }
      destruct (if balance_eqb pb cb then _ else _) eqn:Ew.
      * split; [discriminate|]. intros H. destruct (H c) as [Ha _]; [left; reflexivity|].
        apply Harc in Ha. congruence.
      * split.
        -- destruct (check c) as [[|]|e] eqn:Ek; cbn [bind]; try discriminate.
           intros H y [<-|Hy]; [split; [apply Harc; reflexivity|exact Ek]|]. apply IH; assumption.
        -- intros H. destruct (H c) as [_ Hk]; [left; reflexivity|]. rewrite Hk. cbn [bind].
           apply IH. intros y Hy. apply H; right; exact Hy.
    + split; [discriminate|]. intros H. destruct (H c) as [(bp & bc & _ & H2 & _) _]; [left; reflexivity|].
      congruence.
Qed.

Lemma balance_children_total check pb kids : (forall x, In x kids -> exists b, check x = Ok b) ->
  exists b, balance_children balance_of h check pb kids = Ok b.
Proof.
  induction kids as [|c kids IH]; cbn [balance_children]; intros H; [exists true; reflexivity|].
  destruct (node_balance balance_of h c) as [cb|]; [|exists false; reflexivity].
  destruct (if balance_eqb pb cb then _ else _); [exists false; reflexivity|].
  destruct (H c) as [b Eb]; [left; reflexivity|]. rewrite Eb. cbn [bind].
  destruct b; [|exists false; reflexivity]. apply IH. intros y Hy. apply H; right; exact Hy.
Qed.

Lemma balance_subtree_true fuel i : balance_subtree balance_of fuel h i = Ok true ->
  balanced arc balance_of h [i].
Proof.
  revert i; induction fuel as [|fuel IH]; intros i; cbn [balance_subtree]; [discriminate|].
  destruct (node_balance balance_of h i) as [pb|] eqn:Ei; [|discriminate].
  intros H. rewrite (balance_children_true _ i) in H by exact Ei.
  split.
  - intros j Hj. apply in_network_step in Hj as [->|(c & Hc & Hj)]; [congruence|].
    destruct (H c Hc) as [_ Hk]. apply IH in Hk as [Hk _]. apply Hk, Hj.
  - intros p c Hp Hc. apply in_network_step in Hp as [->|(c' & Hc' & Hp)]; [apply H, Hc|].
    destruct (H c' Hc') as [_ Hk]. apply IH in Hk as [_ Hk]. apply Hk; assumption.
Qed.

Lemma balanced_child i c : balanced arc balance_of h [i] -> In c (get_children h i) ->
  balanced arc balance_of h [c].
Proof.
  intros [H1 H2] Hc. split.
  - intros j Hj. apply H1, in_network_step. right; exists c; auto.
  - intros p k Hp Hk. apply H2; [|exact Hk]. apply in_network_step. right; exists c; auto.
Qed.

Lemma balance_subtree_ranked rank fuel i : ranked h rank -> (rank i < fuel)%nat ->
  (exists b, balance_subtree balance_of fuel h i = Ok b) /\
  (balanced arc balance_of h [i] -> balance_subtree balance_of fuel h i = Ok true).
Proof.
  intros Hr. revert i; induction fuel as [|fuel IH]; intros i Hi; [lia|]. cbn [balance_subtree]. split.
  - destruct (node_balance balance_of h i) as [pb|]; [|exists false; reflexivity].
    apply balance_children_total. intros c Hc. apply IH. specialize (Hr i c Hc). lia.
  - intros Hb. destruct (node_balance balance_of h i) as [pb|] eqn:Ei.
    + apply (balance_children_true _ i); [exact Ei|]. intros c Hc. split.
      * apply Hb; [apply in_root; left; reflexivity|exact Hc].
      * apply IH; [specialize (Hr i c Hc); lia|]. eapply balanced_child; eassumption.
    + exfalso. destruct Hb as [Hb _]. apply (Hb i); [apply in_root; left; reflexivity|exact Ei].
Qed.

Lemma balanced_split roots : balanced arc balance_of h roots <->
  forall i, In i roots -> balanced arc balance_of h [i].
Proof.
  split.
  - intros [H1 H2] i Hi. split.
    + intros j Hj. apply H1, in_network_split. exists i; auto.
    + intros p c Hp Hc. apply H2; [|exact Hc]. apply in_network_split. exists i; auto.
  - intros H. split.
    + intros j Hj. apply in_network_split in Hj as (i & Hi & Hj). apply (H i Hi), Hj.
    + intros p c Hp Hc. apply in_network_split in Hp as (i & Hi & Hp). apply (H i Hi); assumption.
Qed.

(** Whatever the fuel, [true] means balanced; with enough of it there is an answer, the right one. *)
Lemma balance_sound fuel roots : is_balance_consistent balance_of fuel h roots = Ok true ->
  balanced arc balance_of h roots.
Proof.
  unfold is_balance_consistent. rewrite all_ok_true. intros H. apply balanced_split.
  intros i Hi. eapply balance_subtree_true, H, Hi.
Qed.
Lemma balance_decides rank fuel roots : ranked h rank -> (forall i, In i roots -> (rank i < fuel)%nat) ->
  (exists b, is_balance_consistent balance_of fuel h roots = Ok b) /\
  (is_balance_consistent balance_of fuel h roots = Ok true <-> balanced arc balance_of h roots).
Proof.
  intros Hr Hf. split; [|split].
  - apply all_ok_total. intros i Hi. apply (balance_subtree_ranked rank); auto.
  - apply balance_sound.
  - intros H. unfold is_balance_consistent. apply all_ok_true. intros i Hi.
    apply (balance_subtree_ranked rank); auto. apply balanced_split with (roots := roots); assumption.
Qed.
End Balance.

(** ** Aggregation *)

Lemma ctx_ok_aspects c a : ctx_ok c -> In a (c_aspects c) <-> get_characteristic c a <> None.
Proof.
  intros (_ & _ & _ & H). rewrite H. unfold get_characteristic. rewrite find_dict_get.
  destruct (dict_get str_eqb (c_chars c) a) as [v|] eqn:E.
  - split; [discriminate|]. intros _. apply (dict_get_in _ str_eqb_spec) in E. apply in_map_iff. exists (a, v); auto.
  - apply (dict_get_none _ str_eqb_spec) in E. split; [intros Hi; exfalso; apply E, Hi|congruence].
Qed.

Lemma filter_res_ok {A} (p : A -> res bool) (q : A -> bool) l : (forall x, In x l -> p x = Ok (q x)) ->
  filter_res p l = Ok (filter q l).
Proof.
  induction l as [|x l IH]; cbn [filter_res filter]; intros H; [reflexivity|].
  rewrite (H x) by (left; reflexivity). cbn [bind]. rewrite IH by (intros y Hy; apply H; right; exact Hy).
  reflexivity.
Qed.

Definition reportsb (q : qname) (f : fact) : bool :=
  match fact_concept f with Ok c => qname_eqb c q | Raise _ => false end.
Lemma reportsb_true q f : reportsb q f = true <-> reports q f.
Proof.
  unfold reportsb, reports, fact_concept, a_concept. destruct (get_characteristic (f_context f) (u "concept")) as [[c| | | | |]|]; split; try discriminate;
    try (intros (c' & H & _); discriminate H).
  - intros H; exists c; auto.
  - intros (c' & H & H'). injection H as ->. exact H'.
Qed.

Lemma sound_concept f : sound_fact f -> exists c, fact_concept f = Ok c.
Proof. intros (_ & e & E). exists (e_name e). unfold fact_concept, a_concept. rewrite E. reflexivity. Qed.

Definition matchb (q : qname) (nf : fact) (a : str) (f : fact) : bool :=
  if str_eqb a a_concept then reportsb q f
  else same_characteristic (get_characteristic (f_context nf) a) a f.

Lemma filter_filter {A} (p q : A -> bool) l : filter q (filter p l) = filter (fun x => p x && q x) l.
Proof. induction l as [|x l IH]; cbn; [reflexivity|]. destruct (p x); cbn; [destruct (q x)|]; rewrite ?IH; reflexivity. Qed.

Lemma narrow_ok q nf aspects l : (forall f, In f l -> exists c, fact_concept f = Ok c) ->
  narrow q nf aspects l = Ok (filter (fun f => forallb (fun a => matchb q nf a f) aspects) l).
Proof.
  revert l; induction aspects as [|a rest IH]; intros l Hl; cbn [narrow forallb].
  - f_equal. induction l as [|x l IHl]; cbn; [reflexivity|]. f_equal. apply IHl. intros f Hf; apply Hl; right; exact Hf.
  - assert (E : (if str_eqb a a_concept then filter_res (has_concept q) l
                 else Ok (filter (same_characteristic (get_characteristic (f_context nf) a) a) l))
                = Ok (filter (matchb q nf a) l)).
    { unfold matchb. destruct (str_eqb a a_concept); [|reflexivity].
      apply filter_res_ok. intros f Hf. destruct (Hl f Hf) as [c Hc]. unfold has_concept, reportsb.
      rewrite Hc. reflexivity. }
    rewrite E. cbn [bind]. rewrite IH.
    + rewrite filter_filter. reflexivity.
    + intros f Hf. apply filter_In in Hf as [Hf _]. apply Hl, Hf.
Qed.

Lemma char_eqb_same x y : char_eqb x y = true <-> same_value x y.
Proof.
  split.
  - destruct x, y; cbn [char_eqb]; try discriminate.
    + cbn [value_str]. rewrite str_eqb_eq. apply same_entity.
    + unfold period_eqb. rewrite str_eqb_eq. apply same_period.
    + rewrite str_eqb_eq. intros ->. constructor.
    + rewrite andb_true_iff, str_eqb_eq. intros [E ->]. constructor. destruct (qname_eqb_spec (e_name mem) (e_name mem0)); [assumption|discriminate E].
    + rewrite !andb_true_iff, !str_eqb_eq. intros [[E ->] ->]. constructor. destruct (qname_eqb_spec (e_name dim) (e_name dim0)); [assumption|discriminate E].
  - intros [i s i' s' E|p p' E|n ns ds ns' ds'|d d' m m' a E|d d' v a E]; cbn [char_eqb].
    + apply str_eqb_eq, E.
    + apply str_eqb_eq, E.
    + apply str_eqb_refl.
    + rewrite E, str_eqb_refl. destruct (qname_eqb_spec (e_name m') (e_name m')); [reflexivity|congruence].
    + rewrite E, !str_eqb_refl. destruct (qname_eqb_spec (e_name d') (e_name d')); [reflexivity|congruence].
Qed.

Lemma matches_same q nf f : sound_fact nf ->
  (forallb (fun a => matchb q nf a f) (c_aspects (f_context nf)) = true <-> same_facts q nf f).
Proof.
  intros [Hs [cn Hc]]. rewrite forallb_forall. unfold same_facts.
  assert (Hin : In a_concept (c_aspects (f_context nf))).
  { apply Hs. intros E. unfold a_concept in E. rewrite E in Hc. discriminate. }
  split.
  - intros H. split.
    + apply reportsb_true. apply H in Hin. unfold matchb in Hin. rewrite str_eqb_refl in Hin. exact Hin.
    + intros a Ha Hn. pose proof (H a Ha) as Hm. unfold matchb in Hm.
      destruct (str_eqb_spec a a_concept) as [->|_]; [contradiction|].
      unfold same_characteristic in Hm. apply Hs in Ha.
      destruct (get_characteristic (f_context nf) a) as [y|]; [|congruence].
      destruct (get_characteristic (f_context f) a) as [x|]; [|discriminate].
      exists x, y. rewrite <- char_eqb_same. auto.
  - intros [Hr H] a Ha. unfold matchb. destruct (str_eqb_spec a a_concept) as [->|Hn].
    + apply reportsb_true, Hr.
    + destruct (H a Ha Hn) as (x & y & E1 & E2 & E3). unfold same_characteristic. rewrite E1, E2. apply char_eqb_same, E3.
Qed.

Lemma filter_single {A} (p : A -> bool) l x : filter p l = [x] <->
  exists pre post, l = pre ++ x :: post /\ p x = true /\ forall y, In y pre \/ In y post -> p y = false.
Proof.
  split.
  - induction l as [|z l IH]; cbn; [discriminate|]. destruct (p z) eqn:E.
    + intros H. inversion H as [[Hz Hl]]; subst z. exists [], l. repeat split; auto.
      intros y [[]|Hy]. destruct (p y) eqn:Ey; [|reflexivity].
      assert (In y (filter p l)) as Hy' by (apply filter_In; auto). rewrite Hl in Hy'. destruct Hy'.
    + intros H. destruct (IH H) as (pre & post & -> & Hx & Hy). exists (z :: pre), post.
      repeat split; auto. intros y [[<-|Hy']|Hy']; auto.
  - intros (pre & post & -> & Hx & Hy). rewrite filter_app. cbn. rewrite Hx.
    assert (Hno : forall l : list A, (forall y, In y l -> p y = false) -> filter p l = []).
    { intros l0 H0. induction l0 as [|z l0 IH0]; cbn; [reflexivity|].
      rewrite (H0 z) by (left; reflexivity). apply IH0. intros; apply H0; right; assumption. }
    rewrite !Hno by auto. reflexivity.
Qed.

Section Agg.
Variable F : Type.
Variables (fadd fmul : F -> F -> F) (fzero : F) (feqb : F -> F -> bool).
Variable float_of : str -> option F.
Variable weight_of : Q -> F.
Variable name_of : obj -> qname.
Variable facts : list fact.
Hypothesis facts_sound : forall f, In f facts -> sound_fact f.
Variable h : heap.

Local Notation csum := (children_sum F fadd fmul float_of weight_of name_of facts h).
Local Notation wtd := (weighted F fmul float_of weight_of name_of facts h).
Local Notation adds := (adds_up F fadd fmul fzero feqb float_of weight_of name_of facts h).
Local Notation subtree := (aggregation_subtree F fadd fmul fzero feqb float_of weight_of name_of facts).
Local Notation node_ok := (node_adds_up F fadd fmul fzero feqb float_of weight_of name_of facts h).
Local Notation vis := (visited name_of facts h).

Lemma only_fact_filter q nf cf : sound_fact nf ->
  (filter (fun f => forallb (fun a => matchb q nf a f) (c_aspects (f_context nf))) facts = [cf] <->
   only_fact facts q nf cf).
Proof.
  intros Hs. rewrite filter_single. unfold only_fact. split.
  - intros (pre & post & E & H1 & H2). exists pre, post. split; [exact E|]. split.
    + apply matches_same; assumption.
    + intros g Hg Hc. apply matches_same in Hc; [|exact Hs]. rewrite (H2 g Hg) in Hc. discriminate.
  - intros (pre & post & E & H1 & H2). exists pre, post. split; [exact E|]. split.
    + apply matches_same; assumption.
    + intros g Hg. apply Bool.not_true_is_false. intros Hc. apply (H2 g Hg). apply matches_same; assumption.
Qed.

Lemma children_sum_ok nf kids acc s : sound_fact nf ->
  (csum nf kids acc = Ok s <-> exists vs, wtd nf kids vs /\ s = fold_left fadd vs acc).
Proof.
  intros Hs. revert acc; induction kids as [|c kids IH]; intros acc; cbn [children_sum].
  - split.
    + intros H; inversion H; subst. exists []; split; [constructor|reflexivity].
    + intros (vs & Hv & ->). inversion Hv; subst. reflexivity.
  - unfold node_name. destruct (get_object h c) as [o|] eqn:Eo; cbn [bind].
    + rewrite narrow_ok by (intros f Hf; apply sound_concept, facts_sound, Hf). cbn [bind].
      remember (filter (fun f => forallb (fun a => matchb (name_of o) nf a f) (c_aspects (f_context nf))) facts) as l eqn:El.
      symmetry in El. split.
      * destruct l as [|cf [|]]; try discriminate. apply only_fact_filter in El; [|exact Hs].
        unfold fact_float. destruct (float_of (f_value cf)) as [v|] eqn:Ev; cbn [bind]; [|discriminate].
        intros H. apply IH in H as (vs & Hv & ->). eexists; split; [econstructor; eassumption|reflexivity].
      * intros (vs & Hv & ->). inversion Hv as [|? o' cf v ? vs' Ho Hcf Hf Hrest]; subst.
        rewrite Eo in Ho; inversion Ho; subst o'. apply only_fact_filter in Hcf; [|exact Hs].
        rewrite Hcf. unfold fact_float. rewrite Hf. cbn [bind fold_left]. apply IH. exists vs'; auto.
    + split; [discriminate|]. intros (vs & Hv & _). inversion Hv; subst; congruence.
Qed.

Lemma node_facts_true check kids l : (forall f, In f l -> sound_fact f) ->
  (node_facts_ok F fadd fmul fzero feqb float_of weight_of name_of facts h check kids l = Ok true <->
   (forall f, In f l -> adds kids f) /\ (l <> [] -> forall c, In c kids -> check c = Ok true)).
Proof.
  induction l as [|nf l IH]; cbn [node_facts_ok]; intros Hs.
  - split; [intros _; split; [intros f []|congruence]|reflexivity].
  - assert (Hs' : forall f, In f l -> sound_fact f) by (intros f Hf; apply Hs; right; exact Hf).
    specialize (IH Hs'). pose proof (Hs nf (or_introl eq_refl)) as Hnf. split.
    + unfold fact_float. destruct (float_of (f_value nf)) as [v|] eqn:Ev; cbn [bind]; [|discriminate].
      destruct (csum nf kids fzero) as [s|e] eqn:Es; cbn [bind]; [|discriminate].
      apply children_sum_ok in Es as (vs & Hv & ->); [|exact Hnf].
      destruct (feqb v (fold_left fadd vs fzero)) eqn:Eq; cbn [negb]; [|discriminate].
      destruct (all_ok check kids) as [[|]|e] eqn:Ea; cbn [bind]; try discriminate.
      intros H. apply IH in H as [H1 _]. split.
      * intros f [<-|Hf]; [exists v, vs; auto|apply H1, Hf].
      * intros _. apply all_ok_true, Ea.
    + intros [H1 H2]. destruct (H1 nf (or_introl eq_refl)) as (v & vs & Ev & Hv & Eq).
      unfold fact_float. rewrite Ev. cbn [bind].
      assert (Es : csum nf kids fzero = Ok (fold_left fadd vs fzero)) by (apply children_sum_ok; eauto).
      rewrite Es. cbn [bind]. rewrite Eq. cbn [negb].
      assert (Ea : all_ok check kids = Ok true) by (apply all_ok_true, H2; discriminate).
      rewrite Ea. cbn [bind]. apply IH. split; [intros f Hf; apply H1; right; exact Hf|].
      intros _. apply H2. discriminate.
Qed.

Lemma facts_of q : filter_res (has_concept q) facts = Ok (filter (reportsb q) facts).
Proof.
  apply filter_res_ok. intros f Hf. destruct (sound_concept f (facts_sound f Hf)) as [c Hc].
  unfold has_concept, reportsb. rewrite Hc. reflexivity.
Qed.

Lemma visited_trans roots i j : vis roots i -> vis [i] j -> vis roots j.
Proof.
  intros Hi H. induction H as [j [<-|[]]|p o f c Hp IH Ho Hf Hr Hc]; [exact Hi|].
  eapply visited_child; eassumption.
Qed.
Lemma visited_split roots j : vis roots j <-> exists i, In i roots /\ vis [i] j.
Proof.
  split.
  - induction 1 as [i Hi|p o f c Hp [r [Hr IH]] Ho Hf Hrep Hc].
    + exists i; split; [exact Hi|]. apply visited_root; left; reflexivity.
    + exists r; split; [exact Hr|]. eapply visited_child; eassumption.
  - intros (i & Hi & H). eapply visited_trans; [apply visited_root; exact Hi|exact H].
Qed.
Lemma visited_step i j : vis [i] j <-> j = i \/
  exists c o f, get_object h i = Some o /\ In f facts /\ reports (name_of o) f /\
    In c (get_children h i) /\ vis [c] j.
Proof.
  split.
  - induction 1 as [k [<-|[]]|p o f c Hp IH Ho Hf Hr Hc]; [left; reflexivity|].
    right. destruct IH as [->|(c' & o' & f' & H1 & H2 & H3 & H4 & H5)].
    + exists c, o, f. repeat split; auto. apply visited_root; left; reflexivity.
    + exists c', o', f'. repeat split; auto. exact (visited_child _ _ _ _ p o f c H5 Ho Hf Hr Hc).
  - intros [->|(c & o & f & H1 & H2 & H3 & H4 & H)]; [apply visited_root; left; reflexivity|].
    eapply visited_trans; [|exact H]. eapply visited_child; try eassumption. apply visited_root; left; reflexivity.
Qed.

Lemma leaf_children i : is_leaf h i = true <-> get_children h i = [].
Proof.
  unfold is_leaf. rewrite PeanoNat.Nat.eqb_eq. split; [apply length_zero_iff_nil|intros ->; reflexivity].
Qed.

(** One step of the check. *)
Lemma aggregation_step fuel i : subtree (S fuel) h i = Ok true <->
  node_ok i /\
  forall c o f, get_object h i = Some o -> In f facts -> reports (name_of o) f ->
    In c (get_children h i) -> subtree fuel h c = Ok true.
Proof.
  cbn [aggregation_subtree]. destruct (is_leaf h i) eqn:El.
  - apply leaf_children in El. split; [|reflexivity]. intros _. split; [intros H; contradiction|].
    intros c o f _ _ _ H. rewrite El in H. destruct H.
  - unfold node_name. destruct (get_object h i) as [o|] eqn:Eo; cbn [bind].
    + rewrite facts_of. cbn [bind]. rewrite node_facts_true.
      2:{ intros f Hf. apply filter_In in Hf as [Hf _]. apply facts_sound, Hf. }
      split.
      * intros [H1 H2]. split.
        -- intros _. exists o. split; [exact Eo|]. intros f Hf Hr. apply H1, filter_In. split; [exact Hf|].
           apply reportsb_true, Hr.
        -- intros c o' f Ho Hf Hr Hc. inversion Ho; subst o'. apply H2; [|exact Hc].
           intros E. assert (Hi : In f (filter (reportsb (name_of o)) facts))
             by (apply filter_In; split; [exact Hf|apply reportsb_true, Hr]). rewrite E in Hi. destruct Hi.
      * intros [H1 H2]. split.
        -- intros f Hf. apply filter_In in Hf as [Hf Hr]. destruct H1 as (o' & Ho & H1).
           { intros E. apply leaf_children in E. congruence. }
           rewrite Eo in Ho; inversion Ho; subst o'. apply H1; [exact Hf|apply reportsb_true, Hr].
        -- intros Hl c Hc. remember (filter (reportsb (name_of o)) facts) as l eqn:El'.
           destruct l as [|f l]; [congruence|].
           assert (Hi : In f (filter (reportsb (name_of o)) facts)) by (rewrite <- El'; left; reflexivity).
           apply filter_In in Hi as [Hf Hr]. eapply H2; [reflexivity|exact Hf|apply reportsb_true, Hr|exact Hc].
    + split; [discriminate|]. intros [H1 _]. destruct H1 as (o' & Ho & _).
      { intros E. apply leaf_children in E. congruence. }
      congruence.
Qed.

Lemma aggregation_sound_subtree fuel i : subtree fuel h i = Ok true -> forall j, vis [i] j -> node_ok j.
Proof.
  revert i; induction fuel as [|fuel IH]; intros i; [discriminate|]. rewrite aggregation_step.
  intros [H1 H2] j Hj. apply visited_step in Hj as [->|(c & o & f & Ho & Hf & Hr & Hc & Hj)]; [exact H1|].
  eapply IH; [|exact Hj]. eapply H2; eassumption.
Qed.

Lemma aggregation_complete_subtree rank fuel i : ranked h rank -> (rank i < fuel)%nat ->
  (forall j, vis [i] j -> node_ok j) -> subtree fuel h i = Ok true.
Proof.
  intros Hr. revert i; induction fuel as [|fuel IH]; intros i Hi H; [lia|]. rewrite aggregation_step. split.
  - apply H, visited_root; left; reflexivity.
  - intros c o f Ho Hf Hrep Hc. apply IH; [specialize (Hr i c Hc); lia|].
    intros j Hj. apply H, visited_step. right. exists c, o, f. auto.
Qed.

Lemma aggregation_sound fuel roots :
  is_aggregation_consistent F fadd fmul fzero feqb float_of weight_of name_of facts fuel h roots = Ok true ->
  forall j, vis roots j -> node_ok j.
Proof.
  unfold is_aggregation_consistent. rewrite all_ok_true. intros H j Hj.
  apply visited_split in Hj as (i & Hi & Hj). eapply aggregation_sound_subtree; [apply H, Hi|exact Hj].
Qed.
Lemma aggregation_complete rank fuel roots : ranked h rank -> (forall i, In i roots -> (rank i < fuel)%nat) ->
  (forall j, vis roots j -> node_ok j) ->
  is_aggregation_consistent F fadd fmul fzero feqb float_of weight_of name_of facts fuel h roots = Ok true.
Proof.
  intros Hr Hf H. apply all_ok_true. intros i Hi. apply (aggregation_complete_subtree rank); auto.
  intros j Hj. apply H, visited_split. exists i; auto.
Qed.

(** ** The only exception is ValueError when the nodes exist *)
Lemma children_sum_exn nf kids acc e : (forall c, In c kids -> get_object h c <> None) ->
  csum nf kids acc = Raise e -> e = ValueError.
Proof.
  revert acc; induction kids as [|c kids IH]; intros acc Hk; cbn [children_sum]; [discriminate|].
  unfold node_name. destruct (get_object h c) as [o|] eqn:Eo.
  2:{ exfalso. apply (Hk c (or_introl eq_refl)), Eo. }
  cbn [bind]. rewrite narrow_ok by (intros f Hf; apply sound_concept, facts_sound, Hf). cbn [bind].
  destruct (filter _ facts) as [|cf [|]]; try (intros H; inversion H; reflexivity).
  unfold fact_float. destruct (float_of (f_value cf)); cbn [bind]; [|intros H; inversion H; reflexivity].
  apply IH. intros k Hin; apply Hk; right; exact Hin.
Qed.

Lemma all_ok_exn check l e : all_ok check l = Raise e -> exists x, In x l /\ check x = Raise e.
Proof.
  induction l as [|x l IH]; cbn [all_ok]; [discriminate|].
  destruct (check x) as [[|]|e'] eqn:E; cbn [bind]; try discriminate.
  - intros H. destruct (IH H) as (y & Hy & Ey). exists y; split; [right; exact Hy|exact Ey].
  - intros H; inversion H; subst. exists x; split; [left; reflexivity|exact E].
Qed.

Lemma node_facts_exn check kids l e : (forall c, In c kids -> get_object h c <> None) ->
  (forall c, In c kids -> check c = Raise e -> e = ValueError) ->
  node_facts_ok F fadd fmul fzero feqb float_of weight_of name_of facts h check kids l = Raise e -> e = ValueError.
Proof.
  intros Hk Hc. induction l as [|nf l IH]; cbn [node_facts_ok]; [discriminate|].
  unfold fact_float. destruct (float_of (f_value nf)) as [v|]; cbn [bind]; [|intros H; inversion H; reflexivity].
  destruct (csum nf kids fzero) as [s|e'] eqn:Es; cbn [bind].
  2:{ intros H; inversion H; subst. eapply children_sum_exn; eassumption. }
  destruct (negb (feqb v s)); [discriminate|].
  destruct (all_ok check kids) as [[|]|e'] eqn:Ea; cbn [bind]; try discriminate; [exact IH|].
  intros H; inversion H; subst. apply all_ok_exn in Ea as (x & Hx & Ex). eapply Hc; eassumption.
Qed.

Lemma subtree_exn rank fuel i e : ranked h rank -> (rank i < fuel)%nat ->
  (forall p c, In c (get_children h p) -> get_object h c <> None) ->
  subtree fuel h i = Raise e -> e = ValueError.
Proof.
  intros Hr Hi Hk. revert i Hi; induction fuel as [|fuel IH]; intros i Hi; [lia|]. cbn [aggregation_subtree].
  destruct (is_leaf h i) eqn:El; [discriminate|].
  unfold node_name. destruct (get_object h i) as [o|] eqn:Eo.
  - cbn [bind]. rewrite facts_of. cbn [bind]. apply node_facts_exn; [intros c Hc; eapply Hk, Hc|].
    intros c Hc. apply IH. specialize (Hr i c Hc). lia.
  - exfalso. unfold get_object in Eo. unfold is_leaf, get_children in El.
    destruct (nth_error h i); discriminate.
Qed.

Lemma aggregation_exn rank fuel roots e : ranked h rank -> (forall i, In i roots -> (rank i < fuel)%nat) ->
  (forall p c, In c (get_children h p) -> get_object h c <> None) ->
  is_aggregation_consistent F fadd fmul fzero feqb float_of weight_of name_of facts fuel h roots = Raise e ->
  e = ValueError.
Proof.
  intros Hr Hf Hk H. apply all_ok_exn in H as (x & Hx & Ex). eapply subtree_exn; eauto.
Qed.
End Agg.

(** ** What [false] means *)
Section AggFalse.
Variable F : Type.
Variables (fadd fmul : F -> F -> F) (fzero : F) (feqb : F -> F -> bool).
Variable float_of : str -> option F.
Variable weight_of : Q -> F.
Variable name_of : obj -> qname.
Variable facts : list fact.
Hypothesis facts_sound : forall f, In f facts -> sound_fact f.
Variable h : heap.
Local Notation wtd := (weighted F fmul float_of weight_of name_of facts h).
Local Notation vis := (visited name_of facts h).

Definition off (i : nat) : Prop := exists o f v vs,
  get_object h i = Some o /\ In f facts /\ reports (name_of o) f /\ float_of (f_value f) = Some v /\
  wtd f (get_children h i) vs /\ feqb v (fold_left fadd vs fzero) = false.

Lemma all_ok_false check l : all_ok check l = Ok false -> exists x, In x l /\ check x = Ok false.
Proof.
  induction l as [|x l IH]; cbn [all_ok]; [discriminate|].
  destruct (check x) as [[|]|e'] eqn:E; cbn [bind]; try discriminate.
  - intros H. destruct (IH H) as (y & Hy & Ey). exists y; split; [right; exact Hy|exact Ey].
  - intros _. exists x; split; [left; reflexivity|exact E].
Qed.

Lemma node_facts_false check kids l : (forall f, In f l -> sound_fact f) ->
  node_facts_ok F fadd fmul fzero feqb float_of weight_of name_of facts h check kids l = Ok false ->
  exists f, In f l /\
   ((exists v vs, float_of (f_value f) = Some v /\ wtd f kids vs /\ feqb v (fold_left fadd vs fzero) = false) \/
    exists c, In c kids /\ check c = Ok false).
Proof.
  induction l as [|nf l IH]; cbn [node_facts_ok]; intros Hs; [discriminate|].
  unfold fact_float. destruct (float_of (f_value nf)) as [v|] eqn:Ev; cbn [bind]; [|discriminate].
  destruct (children_sum _ _ _ _ _ _ _ _ nf kids fzero) as [s|e] eqn:Es; cbn [bind]; [|discriminate].
  apply children_sum_ok in Es as (vs & Hv & ->); [|exact facts_sound|apply Hs; left; reflexivity].
  destruct (feqb v (fold_left fadd vs fzero)) eqn:Eq; cbn [negb].
  - destruct (all_ok check kids) as [[|]|e] eqn:Ea; cbn [bind]; try discriminate.
    + intros H. destruct (IH (fun f Hf => Hs f (or_intror Hf)) H) as (f & Hf & H').
      exists f; split; [right; exact Hf|exact H'].
    + intros _. exists nf. split; [left; reflexivity|]. right. apply all_ok_false, Ea.
  - intros _. exists nf. split; [left; reflexivity|]. left. exists v, vs. auto.
Qed.

Lemma subtree_false fuel i :
  aggregation_subtree F fadd fmul fzero feqb float_of weight_of name_of facts fuel h i = Ok false ->
  exists j, vis [i] j /\ off j.
Proof.
  revert i; induction fuel as [|fuel IH]; intros i; cbn [aggregation_subtree]; [discriminate|].
  destruct (is_leaf h i); [discriminate|].
  unfold node_name. destruct (get_object h i) as [o|] eqn:Eo; cbn [bind]; [|discriminate].
  rewrite facts_of by exact facts_sound. cbn [bind]. intros H. apply node_facts_false in H.
  2:{ intros f Hf. apply filter_In in Hf as [Hf _]. apply facts_sound, Hf. }
  destruct H as (f & Hf & H). apply filter_In in Hf as [Hf Hr]. apply reportsb_true in Hr.
  destruct H as [(v & vs & H1 & H2 & H3)|(c & Hc & H)].
  - exists i. split; [apply visited_root; left; reflexivity|]. exists o, f, v, vs. repeat split; assumption.
  - destruct (IH c H) as (j & Hj & Ho). exists j. split; [|exact Ho].
    apply visited_step. right. exists c, o, f. auto 10.
Qed.

Lemma aggregation_false fuel roots :
  is_aggregation_consistent F fadd fmul fzero feqb float_of weight_of name_of facts fuel h roots = Ok false ->
  exists j, vis roots j /\ off j.
Proof.
  intros H. apply all_ok_false in H as (i & Hi & H). apply subtree_false in H as (j & Hj & Ho).
  exists j. split; [apply visited_split; exists i; auto|exact Ho].
Qed.
End AggFalse.
