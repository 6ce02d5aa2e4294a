(** C116: the consistency checks of the calculation networks of a filing that was read, in terms of the
    documents: the declarations of its concepts, its links and its facts. *)
From Coq Require Import QArith Qround Permutation.
From Verif Require Import Base QNameModel QNameSpec ErrBase ErrTable ErrModel CtxModel CtxSpec CtxProofs CtxParseProofs.
From Verif Require CtxProps ConceptModel ConceptSpec ConceptProofs ConceptLoad ConceptProps NetModel NetSpec LinkModel LinkSpec LinkProofs LinkProps CompModel
  CalcModel CalcSpec CalcProofs CalcProps.
From Verif Require Import FilingModel FilingSpec FilingProofs FilingStages FilingProps.
Import CalcModel.
Local Open Scope nat_scope.
Local Opaque insert create.

(** ** Model: what the checks ask of the nodes of a filing *)

(** networks/calculation_network_node.py 117-123 get_concept *)
Definition concept_of (f : filing) (o : NetModel.obj) : option element := nth_error (get_all_report_elements f) (NetModel.o_key o).
Definition name_in (f : filing) (o : NetModel.obj) : qname :=
  match concept_of f o with Some e => e_name e | None => QName [] [] [] end.
(** reportelements/concept.py get_balance_type: the text is kept; it is credit or debit (concept.py 300-311) *)
Definition balance_in (f : filing) (o : NetModel.obj) : option balance :=
  match concept_of f o with
  | Some e =>
      match ConceptModel.rr_get_by_qname (fl_elements f) (e_name e) with
      | Ok (ConceptModel.RElement _ _ (ConceptModel.BConcept c)) =>
          match ConceptModel.c_balance c with
          | Some s => Some (if str_eqb s (u "credit") then Credit else Debit)
          | None => None
          end
      | _ => None
      end
  | None => None
  end.
(** calculation_network.py 42-100, of a network of the filing *)
Definition balance_consistent (f : filing) (w : LinkModel.net) (fuel : nat) : res bool :=
  is_balance_consistent (balance_in f) fuel (LinkModel.ls_heap (fl_links f)) (LinkModel.w_roots w).

(** ** Specification *)

(** The declaration that makes the concept has this balance. *)
Definition declared_balance (trees : list (str * xml)) (e : element) (b : balance) : Prop :=
  exists x, declaration_of trees (e_name e) x /\
    ConceptSpec.instance_attr x "balance" = Some (match b with Credit => u "credit" | Debit => u "debit" end).

(** The network shows the second right under the first, with this weight. *)
Definition child_with (f : filing) (w : LinkModel.net) (e e' : element) (q : Q) : Prop :=
  exists r n x m y, In r (LinkModel.w_roots w) /\ NetSpec.reach (LinkModel.ls_heap (fl_links f)) r n /\
    In m (NetModel.get_children (LinkModel.ls_heap (fl_links f)) n) /\
    nth_error (LinkModel.ls_heap (fl_links f)) n = Some x /\ nth_error (get_all_report_elements f) (NetModel.o_key (NetModel.n_obj x)) = Some e /\
    nth_error (LinkModel.ls_heap (fl_links f)) m = Some y /\ nth_error (get_all_report_elements f) (NetModel.o_key (NetModel.n_obj y)) = Some e' /\
    NetModel.n_weight y = q.

(** All concepts have balances; those of the same balance are added, those of different balance are
    subtracted (or have the weight 0). *)
Definition balances_fit (trees : list (str * xml)) (f : filing) (w : LinkModel.net) : Prop :=
  (forall e, in_network f w e -> exists b, declared_balance trees e b) /\
  (forall e e' q, child_with f w e e' q -> exists b b', declared_balance trees e b /\ declared_balance trees e' b' /\
     (b = b' /\ (0 <= q)%Q \/ b <> b' /\ (q <= 0)%Q)).

(** Of a filing that was read from XML or inline documents. *)
Section Assembled.
Variable element_str : xml -> str.
Variable number : str -> Q.
Variable trees : list (str * xml).
Variables (es es1 later : repo xml) (notes : list CompModel.network) (scopes : list scope).
Variable f : filing.
Hypothesis A : FilingStages.assembled element_str number trees es es1 later notes scopes f.
Let docs := dict_values trees.
Let h := LinkModel.ls_heap (fl_links f).

Section Names.
Hypothesis Hdocs : NoDup (map fst trees).
Hypothesis Hprefixes : ConceptLoad.prefixes_usual trees.

Lemma one_declaration q x y : declaration_of trees q x -> declaration_of trees q y -> x = y.
Proof.
  intros (b & a & root & tns & Ed & Hn & Hm & Hf) (b' & a' & root' & tns' & Ed' & Hn' & Hm' & Hf').
  destruct (split_two _ _ _ _ _ _ _ Ed Ed') as [[_ E]|[K|K]]; [congruence| |]; exfalso; [exact (Hm' (Hf _ K Hn'))|exact (Hm (Hf' _ K Hn))].
Qed.

Lemma balance_is o e : concept_of f o = Some e -> e_kind e = KConcept ->
  forall b, balance_in f o = Some b <-> declared_balance trees e b.
Proof.
  intros Ho Hk.
  destruct (FilingStages.f_declared _ _ _ _ _ _ _ _ _ A) as (es3 & H).
  destruct (ConceptProps.C56_first_declaration _ _ _ _ Hdocs Hprefixes H) as (_ & _ & HL).
  assert (He : In e (get_all_report_elements f)) by (eapply nth_error_In, Ho).
  destruct (FilingStages.f_made _ _ _ _ _ _ _ _ _ A Hdocs Hprefixes e He) as (r & Hr & En & _ & Ek).
  assert (EL : ConceptModel.rr_get_by_qname (fl_elements f) (e_name e) = Ok r) by (apply HL; auto).
  unfold balance_in. rewrite Ho, EL.
  pose proof Hr as (b' & [[root' tns'] y] & a' & Ed' & (Hn' & _ & Hb) & Hf').
  rewrite Hk in Ek. destruct r as [rn ri rb]. cbn [ConceptModel.r_body ConceptModel.r_name] in *. destruct rb as [c| | | | |]; try discriminate Ek.
  destruct Hb as [Hd Hv].
  assert (Hy : declaration_of trees (e_name e) y).
  { exists b', a', root', tns'. rewrite En. split; [exact Ed'|]. split; [exact Hn'|]. split; [|exact Hf'].
    intros [K|[_ K]]; [exact (K _ Hd)|exact (K c Hv)]. }
  destruct Hv as (_ & _ & Hbal & Hval & _).
  assert (Nc : u "debit" <> u "credit") by (vm_compute; discriminate).
  intros b. split.
  - intros E. exists y. split; [exact Hy|]. rewrite Hbal. destruct Hval as [V|[V|V]]; rewrite V in *.
    + discriminate E.
    + rewrite str_eqb_refl in E. injection E as <-. reflexivity.
    + destruct (str_eqb_spec (u "debit") (u "credit")); [contradiction|]. injection E as <-. reflexivity.
  - intros (x & Hx & E). rewrite (one_declaration _ _ _ Hx Hy), Hbal in E. rewrite E. f_equal. destruct b.
    + rewrite str_eqb_refl. reflexivity.
    + destruct (str_eqb_spec (u "debit") (u "credit")); [contradiction|reflexivity].
Qed.

Variable role : str.
Variable w : LinkModel.net.
Hypothesis Hw : of_kind f NetModel.KCalculation role w.

Lemma calc_reach i : CalcSpec.in_network h (LinkModel.w_roots w) i <-> exists r, In r (LinkModel.w_roots w) /\ NetSpec.reach h r i.
Proof.
  split.
  - induction 1 as [i Hi|p c Hp (r & Hr & Hrp) Hc]; [exists i; split; [exact Hi|constructor]|exists r; split; [exact Hr|eapply NetSpec.reach_step; eassumption]].
  - intros (r & Hr & H). induction H as [|j k H IH Hk]; [apply CalcSpec.in_root, Hr|eapply CalcSpec.in_child; eassumption].
Qed.

Lemma calc_node i : CalcSpec.in_network h (LinkModel.w_roots w) i ->
  exists x e, nth_error h i = Some x /\ concept_of f (NetModel.n_obj x) = Some e /\ e_kind e = KConcept.
Proof.
  intros (r & Hr & Hi)%calc_reach. destruct Hw as (Hin & Ek & _).
  destruct (FilingStages.nodes _ _ _ _ _ _ _ _ _ A w r i Hin Hr Hi) as (x & Hx & Ho & Hb). rewrite Ek in Hb. cbn [belongs] in Hb.
  unfold has_object in Ho. rewrite Hb in Ho. destruct Ho as (e & He & Hke). exists x, e. auto.
Qed.

Lemma node_balance_is i x e : nth_error h i = Some x -> concept_of f (NetModel.n_obj x) = Some e -> e_kind e = KConcept ->
  forall b, node_balance (balance_in f) h i = Some b <-> declared_balance trees e b.
Proof. intros Hx He Hk b. unfold node_balance, get_object. rewrite Hx. cbn [option_map]. apply balance_is; assumption. Qed.

Lemma fits_balanced : CalcSpec.balanced (CalcSpec.lenient_arc (balance_in f) h) (balance_in f) h (LinkModel.w_roots w) <-> balances_fit trees f w.
Proof.
  split.
  - intros [H1 H2]. split.
    + intros e (r & n & x & Hr & Hn & Hx & He).
      assert (Hi : CalcSpec.in_network h (LinkModel.w_roots w) n) by (apply calc_reach; eauto).
      destruct (calc_node n Hi) as (x' & e' & Hx' & He' & Hk). fold h in Hx. rewrite Hx in Hx'. injection Hx' as <-. unfold concept_of in He'. rewrite He in He'. injection He' as <-.
      specialize (H1 n Hi). destruct (node_balance (balance_in f) h n) as [b|] eqn:E; [|congruence]. exists b. apply (node_balance_is n x e Hx He Hk), E.
    + intros e e' q (r & n & x & m & y & Hr & Hn & Hm & Hx & He & Hy & He' & Hq). fold h in Hn, Hm, Hx, Hy.
      assert (Hi : CalcSpec.in_network h (LinkModel.w_roots w) n) by (apply calc_reach; eauto).
      assert (Hj : CalcSpec.in_network h (LinkModel.w_roots w) m) by (eapply CalcSpec.in_child; eassumption).
      destruct (calc_node n Hi) as (x' & e1 & Hx' & He1 & Hk). rewrite Hx in Hx'. injection Hx' as <-. unfold concept_of in He1. rewrite He in He1. injection He1 as <-.
      destruct (calc_node m Hj) as (y' & e2 & Hy' & He2 & Hk'). rewrite Hy in Hy'. injection Hy' as <-. unfold concept_of in He2. rewrite He' in He2. injection He2 as <-.
      destruct (H2 n m Hi Hm) as (b & b' & E1 & E2 & S). exists b, b'.
      split; [apply (node_balance_is n x e Hx He Hk), E1|]. split; [apply (node_balance_is m y e' Hy He' Hk'), E2|].
      unfold get_weight in S. rewrite Hy in S. rewrite <- Hq. exact S.
  - intros [H1 H2]. split.
    + intros n Hi. destruct (calc_node n Hi) as (x & e & Hx & He & Hk). apply calc_reach in Hi as (r & Hr & Hn).
      destruct (H1 e) as (b & Hb); [exists r, n, x; auto|]. apply (node_balance_is n x e Hx He Hk) in Hb. congruence.
    + intros n m Hi Hm.
      assert (Hj : CalcSpec.in_network h (LinkModel.w_roots w) m) by (eapply CalcSpec.in_child; eassumption).
      destruct (calc_node n Hi) as (x & e & Hx & He & Hk). destruct (calc_node m Hj) as (y & e' & Hy & He' & Hk').
      apply calc_reach in Hi as (r & Hr & Hn).
      destruct (H2 e e' (NetModel.n_weight y)) as (b & b' & D1 & D2 & S).
      { exists r, n, x, m, y. repeat split; assumption. }
      exists b, b'. split; [apply (node_balance_is n x e Hx He Hk), D1|]. split; [apply (node_balance_is m y e' Hy He' Hk'), D2|].
      unfold get_weight. rewrite Hy. exact S.
Qed.

Lemma sound_of fuel : balance_consistent f w fuel = Ok true -> balances_fit trees f w.
Proof. intros H. apply fits_balanced. exact (CalcProps.C23_balance_sound _ _ _ _ H). Qed.

Lemma exact_of rank fuel : CalcSpec.ranked h rank -> (forall i, In i (LinkModel.w_roots w) -> rank i < fuel) ->
  exists b, balance_consistent f w fuel = Ok b /\ (b = true <-> balances_fit trees f w).
Proof. intros Hr Hf. destruct (CalcProps.C23_balance_partial (balance_in f) h _ rank fuel Hr Hf) as (b & Hb & H). exists b. split; [exact Hb|]. rewrite H. apply fits_balanced. Qed.

(** *** Facts *)

Hypothesis Hfacts : forall x, In x (get_all_facts f) -> CalcSpec.sound_fact x.
Section Floats.
Variable F : Type.
Variables (fadd fmul : F -> F -> F) (fzero : F) (feqb : F -> F -> bool).
Variable float_of : str -> option F.
Variable weight_of : Q -> F.
(** calculation_network.py 103-223, with all facts of the filing *)
Definition aggregation_consistent (fuel : nat) : res bool :=
  is_aggregation_consistent F fadd fmul fzero feqb float_of weight_of (name_in f) (get_all_facts f) fuel h (LinkModel.w_roots w).
Local Notation adds_up := (CalcSpec.adds_up F fadd fmul fzero feqb float_of weight_of (name_in f) (get_all_facts f) h).

Lemma roots_of fuel r x e y : aggregation_consistent fuel = Ok true -> In r (LinkModel.w_roots w) ->
  nth_error h r = Some x -> concept_of f (NetModel.n_obj x) = Some e -> NetModel.get_children h r <> [] ->
  In y (get_all_facts f) -> CalcSpec.reports (e_name e) y -> adds_up (NetModel.get_children h r) y.
Proof.
  intros H Hr Hx He Hc Hy Hrep.
  pose proof (CalcProofs.aggregation_sound _ _ _ _ _ _ _ _ _ Hfacts _ fuel _ H r (CalcSpec.visited_root _ _ _ _ _ Hr) Hc) as (o & Ho & G).
  unfold get_object in Ho. rewrite Hx in Ho. injection Ho as <-. apply G; [exact Hy|]. unfold name_in. rewrite He. exact Hrep.
Qed.

Lemma aggregation_of rank fuel : CalcSpec.ranked h rank -> (forall i, In i (LinkModel.w_roots w) -> rank i < fuel) ->
  (aggregation_consistent fuel = Ok true <->
   forall i, CalcSpec.visited (name_in f) (get_all_facts f) h (LinkModel.w_roots w) i -> NetModel.get_children h i <> [] ->
     exists x e, nth_error h i = Some x /\ concept_of f (NetModel.n_obj x) = Some e /\ has_element f KConcept e /\
       forall y, In y (get_all_facts f) -> CalcSpec.reports (e_name e) y -> adds_up (NetModel.get_children h i) y).
Proof.
  intros Hr Hf. unfold aggregation_consistent. rewrite (CalcProps.C24_aggregation_partial _ _ _ _ _ _ _ _ _ _ _ rank fuel Hfacts Hr Hf).
  assert (V : forall i, CalcSpec.visited (name_in f) (get_all_facts f) h (LinkModel.w_roots w) i -> CalcSpec.in_network h (LinkModel.w_roots w) i).
  { intros i. induction 1 as [i Hi|p o y c Hp IH Ho Hy Hrep Hc]; [apply CalcSpec.in_root, Hi|eapply CalcSpec.in_child; eassumption]. }
  split; intros H i Hi.
  - intros Hc. destruct (H i Hi Hc) as (o & Ho & G). destruct (calc_node i (V i Hi)) as (x & e & Hx & He & Hk). fold h in Hx. exists x, e.
    split; [exact Hx|]. split; [exact He|]. split; [split; [eapply nth_error_In, He|exact Hk]|].
    intros y Hy Hrep. unfold get_object in Ho. rewrite Hx in Ho. injection Ho as <-. apply G; [exact Hy|]. unfold name_in. rewrite He. exact Hrep.
  - intros Hc. destruct (H i Hi Hc) as (x & e & Hx & He & _ & G). exists (NetModel.n_obj x). split; [unfold get_object; rewrite Hx; reflexivity|].
    intros y Hy Hrep. apply G; [exact Hy|]. unfold name_in in Hrep. rewrite He in Hrep. exact Hrep.
Qed.
End Floats.
End Names.

Lemma documents_of role : NoDup (map fst trees) -> ConceptLoad.prefixes_usual trees -> LinkSpec.all_usual docs ->
  (forall w, of_kind f NetModel.KCalculation role w -> exists fuel, balance_consistent f w fuel = Ok true) ->
  forall link outside e e', LinkSpec.extended_link docs link outside -> LinkSpec.xl "role" link = Some role ->
    LinkSpec.link_kind link NetModel.KCalculation -> put_below_there (get_all_report_elements f) link outside e e' ->
    exists b b', declared_balance trees e b /\ declared_balance trees e' b'.
Proof.
  intros Hd Hp Hu H link outside e e' Hl Hr Hk Hb.
  destruct (proj2 (FilingStages.below _ _ _ _ _ _ _ _ _ A Hu NetModel.KCalculation role e e' eq_refl)) as (w & Hw & r & n & x & m & y & B1 & B2 & B3 & B4 & B5 & B6 & B7); [eauto 8|].
  destruct (H w Hw) as (fuel & Hc). destruct (sound_of Hd Hp role w Hw fuel Hc) as [_ G].
  destruct (G e e' (NetModel.n_weight y)) as (b & b' & D1 & D2 & _).
  - exists r, n, x, m, y. repeat split; assumption.
  - exists b, b'. auto.
Qed.
End Assembled.

Section Filing.
Variable parse_date : str -> res date.
Variable element_str : xml -> str.
Variable number : str -> Q.
Variable trees : list (str * xml).
Variable es : repo xml.
Variable f : filing.
Hypothesis Hreads : reads parse_date element_str number trees es f.
Let docs := dict_values trees.
Let h := LinkModel.ls_heap (fl_links f).

(** Every fact of a filing is as the checks expect facts: its aspects are those of its characteristics,
    and one is a concept. *)
Theorem C116_facts x : In x (get_all_facts f) -> CalcSpec.sound_fact x.
Proof.
  intros Hx. destruct (f_facts _ _ _ _ _ _ Hreads) as (os & Hos & Ef).
  assert (Hr : repo_facts (fl_facts f) x) by (left; exact Hx). rewrite Ef in Hr.
  apply folded_facts in Hr as [Hr|[[]|[]]]. apply somes_in, in_map_iff in Hr as ([o errs] & Eo & Hr). cbn [fst] in Eo. subst o.
  assert (Hi : exists ix, outcome_of (concept_shared (repository_of (fl_elements f)) docs) (unit_shared docs) (entity_shared docs)
    (period_shared parse_date) (explicit_shared (repository_of (fl_elements f)) docs) (typed_shared (repository_of (fl_elements f)) docs) ix (Some x, errs)).
  { clear -Hos Hr. induction Hos as [|ix o l l' H H' IH]; [destruct Hr|]. destruct Hr as [->|Hr]; [eauto|exact (IH Hr)]. }
  destruct Hi as ([i el] & Hi). cbn [outcome_of fst snd] in Hi. split; [|eapply shared_concept, Hi].
  destruct Hi as (cid & xc & e & us & _ & _ & _ & _ & (id & xp & xe & p & en & ds & _ & _ & _ & _ & _ & _ & Hc) & _).
  intros a. rewrite Hc. apply CalcProofs.ctx_ok_aspects, fold_ok, new_ok.
Qed.

Section Names.
Hypothesis Hdocs : NoDup (map fst trees).
Hypothesis Hprefixes : ConceptLoad.prefixes_usual trees.

Variable role : str.
Variable w : LinkModel.net.
Hypothesis Hw : of_kind f NetModel.KCalculation role w.

(** A network that is found balance consistent fits the declarations. *)
Theorem C116_balance_sound fuel : balance_consistent f w fuel = Ok true -> balances_fit trees f w.
Proof. destruct (f_assembled _ _ _ _ _ _ Hreads) as (es1 & st & A & _). exact (sound_of _ _ _ _ _ _ _ _ _ A Hdocs Hprefixes role w Hw fuel). Qed.

(** If no concept is below itself, the check answers, and just this. *)
Theorem C116_balance_partial rank fuel : CalcSpec.ranked h rank -> (forall i, In i (LinkModel.w_roots w) -> rank i < fuel) ->
  exists b, balance_consistent f w fuel = Ok b /\ (b = true <-> balances_fit trees f w).
Proof. destruct (f_assembled _ _ _ _ _ _ Hreads) as (es1 & st & A & _). exact (exact_of _ _ _ _ _ _ _ _ _ A Hdocs Hprefixes role w Hw rank fuel). Qed.

(** *** Facts *)

Section Floats.
Variable F : Type.
Variables (fadd fmul : F -> F -> F) (fzero : F) (feqb : F -> F -> bool).
Variable float_of : str -> option F.
Variable weight_of : Q -> F.
Local Notation adds_up := (CalcSpec.adds_up F fadd fmul fzero feqb float_of weight_of (name_in f) (get_all_facts f) h).
Local Notation consistent := (aggregation_consistent f w F fadd fmul fzero feqb float_of weight_of).

(** A network that is found aggregation consistent: every fact of the filing for a concept at a root is the
    sum over the children of the root; so is every fact for a concept right below one with facts. *)
Theorem C116_roots fuel r x e y : consistent fuel = Ok true -> In r (LinkModel.w_roots w) ->
  nth_error h r = Some x -> concept_of f (NetModel.n_obj x) = Some e -> NetModel.get_children h r <> [] ->
  In y (get_all_facts f) -> CalcSpec.reports (e_name e) y -> adds_up (NetModel.get_children h r) y.
Proof. exact (roots_of f w C116_facts F fadd fmul fzero feqb float_of weight_of fuel r x e y). Qed.

(** In trees the check says just whether this holds at all nodes that it visits: the roots and the children of
    nodes with facts. *)
Theorem C116_aggregation_partial rank fuel : CalcSpec.ranked h rank -> (forall i, In i (LinkModel.w_roots w) -> rank i < fuel) ->
  (consistent fuel = Ok true <->
   forall i, CalcSpec.visited (name_in f) (get_all_facts f) h (LinkModel.w_roots w) i -> NetModel.get_children h i <> [] ->
     exists x e, nth_error h i = Some x /\ concept_of f (NetModel.n_obj x) = Some e /\ has_element f KConcept e /\
       forall y, In y (get_all_facts f) -> CalcSpec.reports (e_name e) y -> adds_up (NetModel.get_children h i) y).
Proof. destruct (f_assembled _ _ _ _ _ _ Hreads) as (es1 & st & A & _). exact (aggregation_of _ _ _ _ _ _ _ _ _ A role w Hw C116_facts F fadd fmul fzero feqb float_of weight_of rank fuel). Qed.
End Floats.
End Names.

(** If all calculation networks of a role are found balance consistent, the concepts that the links of the
    role put below each other have balances. *)
Theorem C116_documents role : NoDup (map fst trees) -> ConceptLoad.prefixes_usual trees -> LinkSpec.all_usual docs ->
  (forall w, of_kind f NetModel.KCalculation role w -> exists fuel, balance_consistent f w fuel = Ok true) ->
  forall link outside e e', LinkSpec.extended_link docs link outside -> LinkSpec.xl "role" link = Some role ->
    LinkSpec.link_kind link NetModel.KCalculation -> put_below_there (get_all_report_elements f) link outside e e' ->
    exists b b', declared_balance trees e b /\ declared_balance trees e' b'.
Proof. destruct (f_assembled _ _ _ _ _ _ Hreads) as (es1 & st & A & _). exact (documents_of _ _ _ _ _ _ _ _ _ A role). Qed.
End Filing.

(** ** A filing: assets are the cash less the debt *)

Definition k_decl (name balance : string) : xml :=
  x_decl [(u "name", u name); (u "id", u "t_" ++ u name); (u "substitutionGroup", u "xbrli:item"); (u "type", u "xbrli:monetaryItemType");
          (x_instance "periodType", u "instant"); (x_instance "balance", u balance)].
Definition k_schema (debt : string) : xml :=
  Xml (Some (u "{http://www.w3.org/2001/XMLSchema}schema")) [(u "targetNamespace", u "urn:t")] x_scope0 None
    [k_decl "Cash" "debit"; k_decl "Debt" debt; k_decl "Assets" "debit"].
Definition k_fact (name id value : string) : xml :=
  Xml (Some (u "{urn:t}" ++ u name)) [(u "contextRef", u "c1"); (u "id", u id)] CtxProps.s_scope (Some (u value)) [].
Definition k_arc (from to order weight : string) : xml :=
  let x := LinkProps.l_arc "sum" from to in
  Xml (x_tag x) ((u "order", u order) :: (u "weight", u weight) :: x_attrs x) (x_scope x) (x_text x) (x_kids x).
Definition k_link : xml := LinkProps.l_link "calculationLink" "r"
  [LinkProps.l_loc "a" "t_Assets"; LinkProps.l_loc "c" "t_Cash"; LinkProps.l_loc "d" "t_Debt"; k_arc "a" "c" "2" "1"; k_arc "a" "d" "1" "-1"].
Definition k_trees (debt : string) : list (str * xml) :=
  [(u "a.xsd", k_schema debt); (u "i.xml", CtxProps.s_instance [CtxProps.c1; k_fact "Cash" "f1" "7"; k_fact "Debt" "f2" "2"; k_fact "Assets" "f3" "5"]);
   (u "cal.xml", LinkProps.l_doc [k_link])].
Definition k_numbers : list (str * Z) := [(u "1", 1); (u "2", 2); (u "5", 5); (u "7", 7); (u "-1", -1)]%Z.
Definition k_number (s : str) : Q := match dict_get str_eqb k_numbers s with Some z => inject_Z z | None => 0%Q end.
Definition k_read (debt : string) : res filing :=
  parse_filing CtxProps.iso_date (fun _ => []) k_number (fun _ l => l) (fun _ l => l) 100 (fun l => l) (k_trees debt) [].
Definition k_reads (debt : string) : filing -> Prop := reads CtxProps.iso_date (fun _ => []) k_number (k_trees debt) [].
Definition k_check (f : filing) (w : LinkModel.net) : res bool :=
  aggregation_consistent f w Z Z.add Z.mul 0%Z Z.eqb (dict_get str_eqb k_numbers) Qfloor 9.
Definition k_seen (balanced : bool) (f : filing) : Prop :=
  fl_errors f = [] /\ map f_value (get_all_facts f) = [u "7"; u "2"; u "5"] /\
  map (fun w => (LinkModel.w_kind w, LinkModel.w_role w, balance_consistent f w 9, k_check f w)) (fl_nets f) =
    [(NetModel.KCalculation, u "r", Ok balanced, Ok true)] /\
  map NetModel.n_weight (LinkModel.ls_heap (fl_links f)) = [0; 1; -1]%Q.

Lemma k_read_reads debt f : k_read debt = Ok f -> k_reads debt f.
Proof.
  unfold k_read, k_reads, reads. generalize (k_trees debt). intros trees E. exists (fun _ l => l), (fun _ l => l), 100, (fun l => l).
  split; [split; intros n l; apply Permutation_refl|]. split; [intros l; apply Permutation_refl|exact E].
Qed.
(** The assets are debit; so the debt, which is subtracted, has to be credit. *)
Example C116_example : (exists f, k_reads "credit" f /\ k_seen true f) /\ (exists f, k_reads "debit" f /\ k_seen false f).
Proof.
  split.
  - destruct (read_case (k_read "credit") (k_seen true)) as (f & E & S).
    { vm_compute. repeat split. }
    exists f. split; [apply k_read_reads, E|exact S].
  - destruct (read_case (k_read "debit") (k_seen false)) as (f & E & S).
    { vm_compute. repeat split. }
    exists f. split; [apply k_read_reads, E|exact S].
Qed.

(** Its documents meet the hypotheses. *)
Example C116_example_hypotheses debt : NoDup (map fst (k_trees debt)) /\ ConceptLoad.prefixes_usual (k_trees debt) /\ LinkSpec.all_usual (dict_values (k_trees debt)).
Proof.
  split; [|split].
  - constructor; [intros K; cbn [map fst In k_trees] in K; destruct K as [K|[K|[]]]; revert K; vm_compute; discriminate|].
    constructor; [intros K; cbn [map fst In k_trees] in K; destruct K as [K|[]]; revert K; vm_compute; discriminate|].
    constructor; [intros []|constructor].
  - assert (D : ConceptSpec.all_decls (k_trees debt) = map (fun x => (k_schema debt, u "urn:t", x)) [k_decl "Cash" "debit"; k_decl "Debt" debt; k_decl "Assets" "debit"])
      by (vm_compute; reflexivity).
    intros root tns x Hx _. rewrite D in Hx. assert (Sx : x_scope x = x_scope0) by (destruct Hx as [Hx|[Hx|[Hx|[]]]]; injection Hx as _ _ <-; reflexivity).
    unfold ConceptSpec.usual_prefix. rewrite Sx. split; [|right; right; left; reflexivity]. cbn [map fst x_scope0].
    repeat (constructor; [intros K; cbn [In] in K; repeat (destruct K as [K|K]; [revert K; vm_compute; discriminate|]); exact K|]). constructor.
  - intros link outside H.
    assert (L : link = k_link /\ outside = [LinkProps.l_doc [k_link]]).
    { apply LinkProofs.in_all_links in H.
      assert (E : LinkModel.all_links (dict_values (k_trees debt)) = [(k_link, [LinkProps.l_doc [k_link]])]) by (vm_compute; reflexivity).
      rewrite E in H. destruct H as [H|[]]. split; congruence. }
    assert (K : forallb (fun q => match dict_get key_eqb (x_scope q) (Some (u "xlink")) with Some s => str_eqb s LinkSpec.XLINK | None => false end)
      (link :: map fst (LinkModel.inner outside link)) = true) by (destruct L as [-> ->]; vm_compute; reflexivity).
    split; [exact (usual_kids _ K link (or_introl eq_refl))|]. intros x around Hi. apply LinkProofs.inner_inside in Hi.
    apply (usual_kids _ K x). right. apply in_map_iff. exists (x, around). auto.
Qed.

Print Assumptions C116_facts.
Print Assumptions C116_balance_sound.
Print Assumptions C116_balance_partial.
Print Assumptions C116_roots.
Print Assumptions C116_aggregation_partial.
Print Assumptions C116_documents.
