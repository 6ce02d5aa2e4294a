(** C116, C117 and C118 for inline filings: the consistency checks, the attributes and the arc roles of the
    nodes of the networks. *)
From Coq Require Import QArith Permutation.
From Verif Require Import Base Regex QNameModel ErrBase ErrTable ErrModel NumModel DateModel CtxModel CtxSpec CtxProofs InlineModel InlineSpec
  InlineFilingModel InlineFilingSpec InlineFilingProofs InlineFilingProps.
From Verif Require QNameProofs TextModel LinkModel LinkSpec LinkProps LinkProofs NetModel NetSpec NetProps CalcModel CalcSpec CalcProofs FootModel FootProps CtxProps InlineProps InlineSameProps
  ConceptSpec ConceptLoad FilingModel FilingSpec FilingProofs FilingStages FilingProps FilingCalcProps NodeAttrProps ArcFilingProps ArcRoleProps.
From Verif Require AspectFilingProps.
Import FilingCalcProps NodeAttrProps ArcFilingProps AspectFilingProps.
Local Open Scope nat_scope.
Local Opaque u create insert.

Section Filing.
Variable e : FootModel.env.
Variable tostring : TextModel.xml -> str.
Variable parse_date : str -> res date.
Variable py_float : str -> option bool.
Variable era_valid : list (part * str) -> res bool.
Variable element_str : xml -> str.
Variable number : str -> Q.
Variable trees : list (str * tree).
Variable es : repo xml.
Variable il : inline_filing.
Hypothesis Hreads : reads_inline e tostring parse_date py_float era_valid element_str number trees es il.
Let f := il_filing il.
Let roots := instance_roots (dict_values trees).
Let docs := dict_values (plain_trees trees).
Let h := LinkModel.ls_heap (FilingModel.fl_links f).

Lemma stages : exists es1 later,
  FilingStages.assembled element_str number (plain_trees trees) es es1 later (note_networks (length (FilingModel.fl_nets f)) (il_networks il)) [html_scope] f.
Proof. exact (InlineFilingProps.f_assembled _ _ _ _ _ _ _ _ _ _ Hreads). Qed.

(** ** C116 *)

Section Names.
Hypothesis Hdocs : NoDup (map fst trees).
Hypothesis Hprefixes : ConceptLoad.prefixes_usual (plain_trees trees).
Lemma plain_names : NoDup (map fst (plain_trees trees)).
Proof. unfold plain_trees. rewrite map_map. exact Hdocs. Qed.

Section Facts.
Hypothesis Hnames : names_written (plain_trees trees).
Hypothesis Hprefix : forall p, In p (fact_places roots) -> usual_prefix p.

(** Every fact is as the checks expect facts: it has a concept, and its aspects are those of its characteristics. *)
Theorem C116_inline_facts x : In x (FilingModel.get_all_facts f) -> CalcSpec.sound_fact x.
Proof.
  intros Hx. destruct (C119_inline_facts _ _ _ _ _ _ _ _ _ _ Hreads Hdocs Hprefixes Hnames Hprefix x (or_introl Hx)) as (_ & H1 & H2). split; assumption.
Qed.
End Facts.

Variable role : str.
Variable w : LinkModel.net.
Hypothesis Hw : FilingSpec.of_kind f NetModel.KCalculation role w.

Theorem C116_inline_balance_sound fuel : balance_consistent f w fuel = Ok true -> balances_fit (plain_trees trees) f w.
Proof. destruct stages as (es1 & later & A). exact (sound_of _ _ _ _ _ _ _ _ _ A plain_names Hprefixes role w Hw fuel). Qed.
Theorem C116_inline_balance_partial rank fuel : CalcSpec.ranked h rank -> (forall i, In i (LinkModel.w_roots w) -> rank i < fuel) ->
  exists b, balance_consistent f w fuel = Ok b /\ (b = true <-> balances_fit (plain_trees trees) f w).
Proof. destruct stages as (es1 & later & A). exact (exact_of _ _ _ _ _ _ _ _ _ A plain_names Hprefixes role w Hw rank fuel). Qed.

Section Floats.
Hypothesis Hnames : names_written (plain_trees trees).
Hypothesis Hprefix : forall p, In p (fact_places roots) -> usual_prefix p.
Variable F : Type.
Variables (fadd fmul : F -> F -> F) (fzero : F) (feqb : F -> F -> bool).
Variable float_of : str -> option F.
Variable weight_of : Q -> F.
Local Notation adds_up := (CalcSpec.adds_up F fadd fmul fzero feqb float_of weight_of (name_in f) (FilingModel.get_all_facts f) h).
Local Notation consistent := (aggregation_consistent f w F fadd fmul fzero feqb float_of weight_of).

Theorem C116_inline_roots fuel r x c y : consistent fuel = Ok true -> In r (LinkModel.w_roots w) ->
  nth_error h r = Some x -> concept_of f (NetModel.n_obj x) = Some c -> NetModel.get_children h r <> [] ->
  In y (FilingModel.get_all_facts f) -> CalcSpec.reports (e_name c) y -> adds_up (NetModel.get_children h r) y.
Proof. exact (roots_of f w (C116_inline_facts Hnames Hprefix) F fadd fmul fzero feqb float_of weight_of fuel r x c y). Qed.

Theorem C116_inline_aggregation_partial rank fuel : CalcSpec.ranked h rank -> (forall i, In i (LinkModel.w_roots w) -> rank i < fuel) ->
  (consistent fuel = Ok true <->
   forall i, CalcSpec.visited (name_in f) (FilingModel.get_all_facts f) h (LinkModel.w_roots w) i -> NetModel.get_children h i <> [] ->
     exists x c, nth_error h i = Some x /\ concept_of f (NetModel.n_obj x) = Some c /\ FilingSpec.has_element f KConcept c /\
       forall y, In y (FilingModel.get_all_facts f) -> CalcSpec.reports (e_name c) y -> adds_up (NetModel.get_children h i) y).
Proof. destruct stages as (es1 & later & A). exact (aggregation_of _ _ _ _ _ _ _ _ _ A role w Hw (C116_inline_facts Hnames Hprefix) F fadd fmul fzero feqb float_of weight_of rank fuel). Qed.
End Floats.
End Names.

(** ** C117 and C118 *)

Section Links.
Hypothesis Husual : LinkSpec.all_usual docs.
Variable k : NetModel.kind.
Variable role : str.
Variable w : LinkModel.net.
Hypothesis Hk : NetModel.is_physical k = false.
Hypothesis Hw : FilingSpec.of_kind f k role w.
Local Notation elements := (FilingModel.get_all_report_elements f).

Theorem C117_inline_written c y : node_in f w c y ->
  exists link outside, LinkSpec.extended_link docs link outside /\ LinkSpec.xl "role" link = Some role /\ LinkSpec.link_kind link k /\
    (says number elements k link outside c y \/ unwritten k y /\ silent elements link outside c).
Proof. destruct stages as (es1 & later & A). exact (written_of _ _ _ _ _ _ _ _ _ A Husual k role w c y Hk Hw). Qed.
Theorem C117_inline_children_partial c y : child_in f w c y ->
  (forall link outside, LinkSpec.extended_link docs link outside -> LinkSpec.xl "role" link = Some role -> LinkSpec.link_kind link k -> ~ loops link outside) ->
  exists link outside, LinkSpec.extended_link docs link outside /\ LinkSpec.xl "role" link = Some role /\ LinkSpec.link_kind link k /\
    says number elements k link outside c y.
Proof. destruct stages as (es1 & later & A). exact (children_of _ _ _ _ _ _ _ _ _ A Husual k role w c y Hk Hw). Qed.

Theorem C118_inline_written c y : node_in f w c y ->
  exists link outside loc al, LinkSpec.extended_link docs link outside /\ LinkSpec.xl "role" link = Some role /\ LinkSpec.link_kind link k /\
    LinkSpec.element_of link outside "locator" loc al /\ FilingSpec.leads_to elements loc c /\ gives_role link outside loc (NetModel.n_role y).
Proof. destruct stages as (es1 & later & A). exact (arc_written_of _ _ _ _ _ _ _ _ _ A Husual k role w c y Hk Hw). Qed.
Theorem C118_inline_children c y : child_in f w c y ->
  exists link outside loc al arc aa, LinkSpec.extended_link docs link outside /\ LinkSpec.xl "role" link = Some role /\ LinkSpec.link_kind link k /\
    LinkSpec.element_of link outside "locator" loc al /\ FilingSpec.leads_to elements loc c /\
    LinkSpec.element_of link outside "arc" arc aa /\ LinkSpec.xl "to" arc = LinkSpec.xl "label" loc /\ LinkSpec.xl "arcrole" arc = Some (NetModel.n_role y).
Proof. destruct stages as (es1 & later & A). exact (arc_children_of _ _ _ _ _ _ _ _ _ A Husual k role w c y Hk Hw). Qed.
End Links.

Section Listed.
Hypothesis Husual : LinkSpec.all_usual docs.
Variable w : LinkModel.net.
Hypothesis Hw : In w (FilingModel.fl_nets f).
Theorem C118_inline_listed fuel ars ar : ArcRoleProps.get_arc_roles fuel h (LinkModel.w_roots w) = Some ars -> In ar ars ->
  (exists link outside, LinkSpec.extended_link docs link outside /\ LinkSpec.xl "role" link = Some (LinkModel.w_role w) /\
     LinkSpec.link_kind link (LinkModel.w_kind w) /\ on_some_arc link outside ar) \/ ar = u "unknown".
Proof. destruct stages as (es1 & later & A). exact (arc_listed_of _ _ _ _ _ _ _ _ _ A Husual fuel w ars ar Hw). Qed.
Theorem C118_inline_physical : NetModel.is_physical (LinkModel.w_kind w) = true ->
  exists ar, forall r n y, In r (LinkModel.w_roots w) -> NetSpec.reach h r n -> nth_error h n = Some y -> NetModel.n_role y = ar.
Proof. destruct stages as (es1 & later & A). exact (arc_physical_of _ _ _ _ _ _ _ _ _ A Husual w Hw). Qed.
End Listed.
End Filing.

(** ** An inline filing: assets are the cash less the debt *)

Definition j_fact (name id value : string) : tree :=
  InlineSameProps.y_elem (InlineProps.ix "nonFraction") [("name"%string, name); ("contextRef", "c1")%string; ("unitRef", "usd")%string; ("id"%string, id); ("decimals", "0")%string] value [] "".
Definition j_trees : list (str * tree) :=
  [(u "a.xsd", InlineSameProps.bare (k_schema "credit")); (u "i.xhtml", InlineSameProps.y_page [] [j_fact "t:Debt" "f2" "2"; j_fact "t:Assets" "f3" "5"]);
   (u "cal.xml", InlineSameProps.bare (LinkProps.l_doc [k_link]))].
Definition j_read : res inline_filing :=
  parse_inline_filing FootProps.env0 InlineSameProps.y_tostring 100 CtxProps.iso_date (fun _ => Some false) (fun _ => Ok true) (fun _ => []) k_number
    (fun _ l => l) (fun _ l => l) (fun l => l) j_trees [].
Definition j_reads : inline_filing -> Prop :=
  reads_inline FootProps.env0 InlineSameProps.y_tostring CtxProps.iso_date (fun _ => Some false) (fun _ => Ok true) (fun _ => []) k_number j_trees [].
Definition j_seen (g : inline_filing) : Prop :=
  k_seen true (il_filing g) /\ k_shown (il_filing g) /\ FilingModel.fl_nets (il_filing g) = [k_net] /\
  map (fun w => ArcRoleProps.get_arc_roles 100 (LinkModel.ls_heap (FilingModel.fl_links (il_filing g))) (LinkModel.w_roots w)) (FilingModel.fl_nets (il_filing g)) = [Some [u "sum"]].
(** Both checks answer that it is consistent; the weights are those of the arcs. *)
Example C116_inline_example : exists g, j_reads g /\ j_seen g /\ FilingSpec.of_kind (il_filing g) NetModel.KCalculation (u "r") k_net.
Proof.
  destruct (InlineSameProps.inline_case j_read j_seen) as (g & E & S); [vm_compute; repeat split|].
  exists g. split; [|split; [exact S|]].
  - clear S. revert E. unfold j_read, j_reads, reads_inline. generalize j_trees. intros ts E. exists 100, (fun _ l => l), (fun _ l => l), (fun l => l).
    split; [exact LinkProps.same_order|]. split; [intros l; apply Permutation_refl|exact E].
  - destruct S as (_ & _ & S & _). split; [rewrite S; left; reflexivity|split; reflexivity].
Qed.
(** Its documents meet the hypotheses. *)
Definition j_roots := instance_roots (dict_values j_trees).
Example C116_inline_example_hypotheses : NoDup (map fst j_trees) /\ ConceptLoad.prefixes_usual (plain_trees j_trees) /\
  LinkSpec.all_usual (dict_values (plain_trees j_trees)) /\ (forall p, In p (fact_places j_roots) -> usual_prefix p) /\
  names_written (plain_trees j_trees).
Proof.
  destruct (C116_example_hypotheses "credit") as (_ & H2 & H3).
  split; [|split; [|split; [|split]]].
  - constructor; [intros K; cbn [map fst In j_trees] in K; destruct K as [K|[K|[]]]; revert K; vm_compute; discriminate|].
    constructor; [intros K; cbn [map fst In j_trees] in K; destruct K as [K|[]]; revert K; vm_compute; discriminate|].
    constructor; [intros []|constructor].
  - assert (D : ConceptSpec.all_decls (plain_trees j_trees) = ConceptSpec.all_decls (k_trees "credit")) by (vm_compute; reflexivity).
    unfold ConceptLoad.prefixes_usual in *. rewrite D. exact H2.
  - apply (InlineSameProps.usual_as _ (dict_values (k_trees "credit"))); [vm_compute; reflexivity|exact H3].
  - apply InlineSameProps.usual_prefixes. vm_compute. reflexivity.
  - assert (D : ConceptSpec.all_decls (plain_trees j_trees) = map (fun x => (k_schema "credit", u "urn:t", x)) [k_decl "Cash" "debit"; k_decl "Debt" "credit"; k_decl "Assets" "debit"])
      by (vm_compute; reflexivity).
    intros root tns x name Hx Hn. rewrite D in Hx.
    assert (Sx : x_scope x = FilingProps.x_scope0) by (destruct Hx as [Hx|[Hx|[Hx|[]]]]; injection Hx as _ _ <-; reflexivity). rewrite Sx.
    assert (Et : tns = u "urn:t") by (destruct Hx as [Hx|[Hx|[Hx|[]]]]; congruence). subst tns.
    split; [vm_compute; discriminate|]. split; [intros K; vm_compute in K; repeat (destruct K as [K|K]; [discriminate K|]); exact K|].
    assert (En : name = u "Cash" \/ name = u "Debt" \/ name = u "Assets").
    { destruct Hx as [Hx|[Hx|[Hx|[]]]]; injection Hx as _ <-; vm_compute in Hn; injection Hn as <-; [left|right; left|right; right]; vm_compute; reflexivity. }
    split; [destruct En as [->|[->| ->]]; vm_compute; discriminate|].
    split; [intros K; destruct En as [->|[->| ->]]; vm_compute in K; repeat (destruct K as [K|K]; [discriminate K|]); exact K|].
    intros K. vm_compute in K. repeat (destruct K as [K|K]; [discriminate K|]). exact K.
Qed.

Print Assumptions C116_inline_facts.
Print Assumptions C116_inline_balance_sound.
Print Assumptions C116_inline_balance_partial.
Print Assumptions C116_inline_roots.
Print Assumptions C116_inline_aggregation_partial.
Print Assumptions C117_inline_written.
Print Assumptions C117_inline_children_partial.
Print Assumptions C118_inline_written.
Print Assumptions C118_inline_children.
Print Assumptions C118_inline_listed.
Print Assumptions C118_inline_physical.
