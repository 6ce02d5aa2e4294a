(** C103: two readings of an inline filing; examples of inline filings. *)
From Coq Require Import QArith Permutation.
From Verif Require Import Base QNameModel ErrBase ErrTable ErrModel NumModel DateModel CtxModel CtxSpec CtxProofs InlineModel InlineSpec InlineReportSpec
  InlineFrame InlineFilingModel InlineFilingSpec InlineFilingProofs InlineFootProofs InlineContProofs InlineSameProofs InlineFilingProps.
From Verif Require TextModel TextSpec LinkModel LinkSpec LinkProps NetModel NetSpec LangModel FootModel FootSpec FootProofs FootProps CtxProps FilingProps InlineProps ConceptModel ConceptSpec ConceptLoad CompModel FilingModel FilingSpec FilingStages LinkProofs.
Local Open Scope nat_scope.
Local Opaque u create insert.

Section Twice.
Variable uri : str -> bool.
Variable float : str -> option Q.
Variable tostring : TextModel.xml -> str.
Variable parse_date : str -> res date.
Variable py_float : str -> option bool.
Variable era_valid : list (part * str) -> res bool.
Variable element_str : xml -> str.
Variable number : str -> Q.
Variable trees : list (str * tree).
Variable es : repo xml.
Notation reads e := (reads_inline e tostring parse_date py_float era_valid element_str number trees es).
Let roots := instance_roots (dict_values trees).

Section Sets.
Variables set1 set2 : list str -> list str.
Variables repr1 repr2 : list str -> str.
Hypothesis H1 : FootSpec.lists_sets set1.
Hypothesis H2 : FootSpec.lists_sets set2.
Let e1 := FootModel.Env uri float set1 repr1.
Let e2 := FootModel.Env uri float set2 repr2.
Variables f1 f2 : inline_filing.
Hypothesis R1 : reads e1 f1.
Hypothesis R2 : reads e2 f2.

Lemma two_stages : exists es1 later1 later2,
  FilingStages.assembled element_str number (plain_trees trees) es es1 later1
    (note_networks (length (FilingModel.fl_nets (il_filing f1))) (il_networks f1)) [html_scope] (il_filing f1) /\
  FilingStages.assembled element_str number (plain_trees trees) es es1 later2
    (note_networks (length (FilingModel.fl_nets (il_filing f2))) (il_networks f2)) [html_scope] (il_filing f2) /\
  FilingModel.fl_facts (il_filing f1) = FilingModel.fl_facts (il_filing f2) /\
  il_facts f1 = il_facts f2 /\ il_contexts f1 = il_contexts f2 /\ il_notes f1 = il_notes f2 /\ Forall2 networks_alike (il_networks f1) (il_networks f2) /\
  Forall2 alike later1 later2.
Proof.
  destruct (inline_stages _ _ _ _ _ _ _ _ _ _ R1) as (fuel1 & es1 & r1 & taken1 & s1 & s1' & P1 & N1 & A1 & F1 & _).
  destruct (inline_stages _ _ _ _ _ _ _ _ _ _ R2) as (fuel2 & es2 & r2 & taken2 & s2 & s2' & P2 & N2 & A2 & F2 & _).
  fold roots in P1, N1, P2, N2.
  assert (D : FilingModel.fl_elements (il_filing f1) = FilingModel.fl_elements (il_filing f2) /\ es1 = es2).
  { pose proof (FilingStages.as_declared _ _ _ _ _ _ _ _ _ A1) as D1. pose proof (FilingStages.as_declared _ _ _ _ _ _ _ _ _ A2) as D2. rewrite D1 in D2. injection D2 as ? ?. auto. }
  destruct D as [D <-]. rewrite D in P1.
  destruct (inline_chains _ _ _ _ _ _ _ _ _ _ _ _ _ P1) as (cr1 & C1). destruct (inline_chains _ _ _ _ _ _ _ _ _ _ _ _ _ P2) as (cr2 & C2).
  pose proof (chains_of_same _ _ _ _ _ C1 C2) as Ec.
  assert (Ed : documents tostring fuel1 roots = documents tostring fuel2 roots) by (unfold documents; rewrite Ec; reflexivity). rewrite Ed in P1.
  destruct (inline_alike uri float set1 set2 repr1 repr2 H1 H2 parse_date (FilingModel.repository_of (FilingModel.fl_elements (il_filing f2))) py_float era_valid fuel1 fuel2 roots
    (documents tostring fuel2 roots) _ _ (like_refl empty_state) _ _ _ _ P1 P2) as [E L].
  injection E as Er Et Ek Ef. rewrite Er, Et, Ef in N1.
  assert (L' : like (after es1 s1) (after es1 s2)).
  { destruct L as (L1 & L2 & L3 & L4). split; [|auto]. unfold after. cbn [s_errors]. apply Forall2_app; [apply alike_refl|exact L1]. }
  destruct (footnotes_alike uri float set1 set2 repr1 repr2 H1 H2 tostring fuel1 fuel2 roots r2 taken2 (il_facts f2) Ec _ _ L' _ _ _ _ N1 N2) as [[E1 E2] (L1 & _)].
  cbn [fst snd] in E1, E2. exists es1, (s_errors s1'), (s_errors s2'). split; [exact A1|]. split; [exact A2|]. split; [congruence|].
  repeat (split; [assumption|]). assumption.
Qed.
Lemma same_note_networks n l1 l2 : Forall2 networks_alike l1 l2 -> note_networks n l1 = note_networks n l2.
Proof.
  unfold note_networks. intros H. revert n. induction H as [|a b l1 l2 [Hr _] _ IH]; intros n; [reflexivity|]. cbn [length seq combine map fst snd]. rewrite Hr. f_equal. apply IH.
Qed.

(** Reading the same documents with other orders of sets gives the same filing: elements, facts, contexts,
    footnotes, networks and components are the same; what can differ is the order of labels, what is inside
    the networks of footnotes, and in the reports their text and the element of one kind of report. *)
Theorem C103_same :
  FilingModel.get_all_report_elements (il_filing f1) = FilingModel.get_all_report_elements (il_filing f2) /\
  il_facts f1 = il_facts f2 /\ il_contexts f1 = il_contexts f2 /\ il_notes f1 = il_notes f2 /\
  Forall2 networks_alike (il_networks f1) (il_networks f2) /\
  FilingModel.fl_namespaces (il_filing f1) = FilingModel.fl_namespaces (il_filing f2) /\
  FilingModel.get_all_networks (il_filing f1) = FilingModel.get_all_networks (il_filing f2) /\
  FilingModel.get_all_components (il_filing f1) = FilingModel.get_all_components (il_filing f2) /\
  Forall2 alike (FilingModel.fl_errors (il_filing f1)) (FilingModel.fl_errors (il_filing f2)) /\
  forall x, Permutation (FilingModel.labels_in (il_filing f1) x) (FilingModel.labels_in (il_filing f2) x).
Proof.
  destruct two_stages as (es1 & l1 & l2 & A1 & A2 & Ef & Ei & Ec & En & Hn & Hl).
  pose proof (FilingStages.same_number _ _ _ _ _ _ _ _ _ _ _ _ A1 A2 Ef) as Elen.
  assert (Enn : note_networks (length (FilingModel.fl_nets (il_filing f1))) (il_networks f1) = note_networks (length (FilingModel.fl_nets (il_filing f2))) (il_networks f2))
    by (rewrite Elen; apply same_note_networks, Hn).
  destruct (FilingStages.same _ _ _ _ _ _ _ _ _ _ _ _ A1 A2 Ef Enn) as (S1 & _ & S3 & (l & S4 & S5) & S6 & S7 & S8).
  repeat (split; [first [assumption|idtac]|]); [|exact S8]. rewrite S4, S5. apply Forall2_app; [exact Hl|apply alike_refl].
Qed.
Theorem C103_same_content i w1 w2 :
  nth_error (FilingModel.fl_nets (il_filing f1)) i = Some w1 -> nth_error (FilingModel.fl_nets (il_filing f2)) i = Some w2 -> NetModel.is_physical (LinkModel.w_kind w1) = false ->
  LinkModel.w_kind w1 = LinkModel.w_kind w2 /\ LinkModel.w_role w1 = LinkModel.w_role w2 /\
  (forall x, FilingSpec.in_network (il_filing f1) w1 x <-> FilingSpec.in_network (il_filing f2) w2 x) /\
  (forall x y, FilingSpec.below_in (il_filing f1) w1 x y <-> FilingSpec.below_in (il_filing f2) w2 x y).
Proof.
  destruct two_stages as (es1 & l1 & l2 & A1 & A2 & Ef & _). eapply FilingStages.same_content; eassumption.
Qed.
Theorem C103_same_physical w1 :
  In w1 (FilingModel.fl_nets (il_filing f1)) -> NetModel.is_physical (LinkModel.w_kind w1) = true ->
  exists w2, In w2 (FilingModel.fl_nets (il_filing f2)) /\ LinkModel.w_kind w1 = LinkModel.w_kind w2 /\ LinkModel.w_role w1 = LinkModel.w_role w2 /\
    LinkSpec.same_tree (LinkModel.ls_heap (FilingModel.fl_links (il_filing f1))) (LinkModel.ls_heap (FilingModel.fl_links (il_filing f2))) (LinkModel.w_roots w1) (LinkModel.w_roots w2).
Proof.
  destruct two_stages as (es1 & l1 & l2 & A1 & A2 & Ef & _). eapply FilingStages.same_physical; eassumption.
Qed.
End Sets.

(** With the same orders of the sets of identifiers, the reports and the networks of footnotes are the same. *)
Theorem C103_same_order e f1 f2 : reads e f1 -> reads e f2 ->
  FilingModel.fl_errors (il_filing f1) = FilingModel.fl_errors (il_filing f2) /\ il_networks f1 = il_networks f2.
Proof.
  intros R1 R2.
  destruct (inline_stages _ _ _ _ _ _ _ _ _ _ R1) as (fuel1 & es1 & r1 & taken1 & s1 & s1' & P1 & N1 & A1 & F1 & _).
  destruct (inline_stages _ _ _ _ _ _ _ _ _ _ R2) as (fuel2 & es2 & r2 & taken2 & s2 & s2' & P2 & N2 & A2 & F2 & _).
  fold roots in P1, N1, P2, N2.
  assert (D : FilingModel.fl_elements (il_filing f1) = FilingModel.fl_elements (il_filing f2) /\ es1 = es2).
  { pose proof (FilingStages.as_declared _ _ _ _ _ _ _ _ _ A1) as D1. pose proof (FilingStages.as_declared _ _ _ _ _ _ _ _ _ A2) as D2. rewrite D1 in D2. injection D2 as ? ?. auto. }
  destruct D as [D <-]. rewrite D in P1.
  destruct (inline_chains _ _ _ _ _ _ _ _ _ _ _ _ _ P1) as (cr1 & C1). destruct (inline_chains _ _ _ _ _ _ _ _ _ _ _ _ _ P2) as (cr2 & C2).
  pose proof (chains_of_same _ _ _ _ _ C1 C2) as Ec.
  assert (Ed : documents tostring fuel1 roots = documents tostring fuel2 roots) by (unfold documents; rewrite Ec; reflexivity). rewrite Ed in P1.
  pose proof (inline_same e parse_date (FilingModel.repository_of (FilingModel.fl_elements (il_filing f2))) py_float era_valid fuel1 fuel2 roots
    (documents tostring fuel2 roots) _ _ _ P1 P2) as E.
  injection E as Er Et Ek Ef Es. rewrite Er, Et, Ef, Es in N1. unfold read_footnotes in N1, N2. rewrite Ec, N2 in N1. injection N1 as _ E2 E3.
  assert (Eff : FilingModel.fl_facts (il_filing f1) = FilingModel.fl_facts (il_filing f2)) by congruence.
  pose proof (FilingStages.same_number _ _ _ _ _ _ _ _ _ _ _ _ A1 A2 Eff) as Elen.
  assert (Enn : note_networks (length (FilingModel.fl_nets (il_filing f1))) (il_networks f1) = note_networks (length (FilingModel.fl_nets (il_filing f2))) (il_networks f2)) by congruence.
  destruct (FilingStages.same _ _ _ _ _ _ _ _ _ _ _ _ A1 A2 Eff Enn) as (_ & _ & _ & (l & S4 & S5) & _).
  split; [congruence|auto].
Qed.
End Twice.

(** ** Examples *)

Local Transparent u create insert.

Fixpoint bare (x : xml) : tree := let 'Xml tag attrs sc text kids := x in Tree tag attrs sc text (map bare kids) None.
(** An element of a document, with its tail *)
Definition y_elem (tag : str) (attrs : list (string * string)) (text : string) (kids : list tree) (tail : string) : tree :=
  Tree (Some tag) (map (fun kv => (u (fst kv), u (snd kv))) attrs) InlineProps.i_scope (Some (u text)) kids (Some (u tail)).
Definition y_lang : string * string := ("{http://www.w3.org/XML/1998/namespace}lang", "en")%string.
Definition y_relationship (attrs : list (string * string)) : xml := InlineProps.i_elem (InlineProps.ix "relationship") attrs None [].
Definition y_header (more : list xml) : tree :=
  bare (InlineProps.i_header [InlineProps.i_references "r" [InlineProps.i_schema];
    InlineProps.i_resources ([InlineProps.i_context "c1"; InlineProps.i_unit "usd"] ++ more)]).
(** A number, a text that goes on in a continuation, and a footnote *)
Definition y_number : tree :=
  y_elem (InlineProps.ix "nonFraction") [("name", "t:Cash"); ("contextRef", "c1"); ("unitRef", "usd"); ("id", "f1"); ("decimals", "0")]%string "7" [] " dollars".
Definition y_text (kids : list tree) : tree :=
  y_elem (InlineProps.ix "nonNumeric") [("name", "t:Cash"); ("contextRef", "c1"); ("id", "f2"); ("continuedAt", "k1")]%string "hel" kids "".
Definition y_continuation (id : string) : tree := y_elem (InlineProps.ix "continuation") [("id"%string, id)] "lo" [] "".
Definition y_footnote : tree :=
  y_elem (InlineProps.ix "footnote") [("id", "n1")%string; y_lang] "A " [y_elem (u "b") [] "note" [] ""] "".
Definition y_page (more : list xml) (kids : list tree) : tree :=
  y_elem (u "html") [] "" [y_elem (u "body") [] "" (y_header more :: y_elem (u "p") [] "We have " [y_number] "" :: kids) ""] "".
Definition y_related : xml := y_relationship [("fromRefs", "f1"); ("toRefs", "n1"); ("order", "2")]%string.
Definition y_trees (more : list xml) (kids : list tree) : list (str * tree) :=
  [(u "a.xsd", bare FilingProps.x_schema); (u "i.xhtml", y_page more kids); (u "pre.xml", bare (LinkProps.l_doc [FilingProps.x_link]));
   (u "lab.xml", bare (LinkProps.l_doc [FilingProps.x_labels]))].
Definition y_tostring (x : TextModel.xml) : str := TextModel.extract_text_content x.
Definition y_read (e : FootModel.env) (more : list xml) (kids : list tree) : res inline_filing :=
  parse_inline_filing e y_tostring 100 CtxProps.iso_date (fun _ => Some false) (fun _ => Ok true) (fun _ => []) (fun _ => 1%Q)
    (fun _ l => l) (fun _ l => l) (fun l => l) (y_trees more kids) [].
Definition y_kids : list tree := [y_text []; y_continuation "k1"; y_footnote].

Lemma inline_case (r : res inline_filing) (P : inline_filing -> Prop) : match r with Ok f => P f | Raise _ => False end -> exists f, r = Ok f /\ P f.
Proof. destruct r as [f|]; [eauto|intros []]. Qed.
Definition y_reads (e : FootModel.env) (more : list xml) (kids : list tree) : inline_filing -> Prop :=
  reads_inline e y_tostring CtxProps.iso_date (fun _ => Some false) (fun _ => Ok true) (fun _ => []) (fun _ => 1%Q) (y_trees more kids) [].
Lemma y_read_reads e more kids f : y_read e more kids = Ok f -> y_reads e more kids f.
Proof.
  unfold y_read, y_reads, reads_inline. generalize (y_trees more kids). intros trees E. exists 100, (fun _ l => l), (fun _ l => l), (fun l => l).
  split; [exact LinkProps.same_order|]. split; [intros l; apply Permutation_refl|exact E].
Qed.

(** It is read without a report: both facts, the second with its continuation, the footnote and its network. *)
Definition y_seen (f : inline_filing) : Prop :=
  FilingModel.fl_errors (il_filing f) = [] /\ map f_value (FilingModel.get_all_facts (il_filing f)) = [u "7"; u "hello"] /\
  map (fun n => (fst n, FootModel.no_content (snd n), FootModel.no_lang (snd n))) (il_notes f) = [(u "n1", u "A note", u "en")] /\
  map FootModel.nw_roots (il_networks f) = [[u "f1"]] /\
  map (fun e => (q_local (e_name e), e_kind e)) (FilingModel.get_all_report_elements (il_filing f)) = [(u "Cash", KConcept); (u "Assets", KAbstract)] /\
  map (fun e => map LangModel.l_text (FilingModel.labels_in (il_filing f) e)) (FilingModel.get_all_report_elements (il_filing f)) = [[u "Cash"; u "Money"]; []] /\
  map (fun c => (CompModel.c_uri c, option_map CompModel.n_object (CompModel.c_presentation c))) (FilingModel.get_all_components (il_filing f)) = [(u "r", Some 1)].
Example C101_example : exists f, y_reads FootProps.env0 [y_related] y_kids f /\ y_seen f.
Proof.
  destruct (inline_case (y_read FootProps.env0 [y_related] y_kids) y_seen) as (f & E & S); [vm_compute; repeat split|].
  exists f. split; [exact (y_read_reads _ _ _ _ E)|exact S].
Qed.

(** Its documents meet the hypotheses of the theorems. *)
Definition y_docs (more : list xml) (kids : list tree) : list xml := dict_values (plain_trees (y_trees more kids)).
Lemma usual_as docs docs' : LinkModel.all_links docs = LinkModel.all_links docs' -> LinkSpec.all_usual docs' -> LinkSpec.all_usual docs.
Proof.
  intros E H link outside Hl. apply (H link outside). apply LinkProofs.in_all_links. rewrite <- E. apply LinkProofs.in_all_links, Hl.
Qed.
Example C100_example_links : LinkSpec.all_usual (y_docs [y_related] y_kids).
Proof. apply (usual_as _ (dict_values FilingProps.x_trees)); [vm_compute; reflexivity|exact FilingProps.C91_example_usual]. Qed.
Example C100_example_declared :
  NoDup (map fst (y_trees [y_related] y_kids)) /\ ConceptLoad.prefixes_usual (plain_trees (y_trees [y_related] y_kids)) /\
  FilingSpec.names_usual (plain_trees (y_trees [y_related] y_kids)).
Proof.
  destruct FilingProps.C93_example as (_ & H2 & H3 & _).
  assert (D : ConceptSpec.all_decls (plain_trees (y_trees [y_related] y_kids)) = ConceptSpec.all_decls FilingProps.x_trees) by (vm_compute; reflexivity).
  split; [|split].
  - constructor; [intros K; cbn [map fst In y_trees] in K; destruct K as [K|[K|[K|[]]]]; revert K; vm_compute; discriminate|].
    constructor; [intros K; cbn [map fst In y_trees] in K; destruct K as [K|[K|[]]]; revert K; vm_compute; discriminate|].
    constructor; [intros K; cbn [map fst In y_trees] in K; destruct K as [K|[]]; revert K; vm_compute; discriminate|].
    constructor; [intros []|constructor].
  - unfold ConceptLoad.prefixes_usual in *. rewrite D. exact H2.
  - unfold FilingSpec.names_usual in *. rewrite D. exact H3.
Qed.
Definition y_roots (more : list xml) (kids : list tree) : list tree := instance_roots (dict_values (y_trees more kids)).
Lemma usual_prefixes roots : forallb (fun p => match tag_name (p_xml p) with Ok t => str_eqb t (u "ix:nonNumeric") || str_eqb t (u "ix:nonFraction") | Raise _ => false end)
  (fact_places roots) = true -> forall p, In p (fact_places roots) -> usual_prefix p.
Proof.
  intros H p Hp. rewrite forallb_forall in H. specialize (H p Hp). unfold usual_prefix. destruct (tag_name (p_xml p)) as [t|]; [|discriminate H].
  apply orb_true_iff in H as [H|H]; [left|right]; f_equal; [destruct (str_eqb_spec t (u "ix:nonNumeric"))|destruct (str_eqb_spec t (u "ix:nonFraction"))]; congruence.
Qed.
Example C99_example_prefix p : In p (fact_places (y_roots [y_related] y_kids)) -> usual_prefix p.
Proof. apply usual_prefixes. vm_compute. reflexivity. Qed.
(** Its relationship is as [C102_networks_partial] wants it, whatever it is read with. *)
Example C102_example f : y_reads FootProps.env0 [y_related] y_kids f ->
  forall x, In x (resource_parts "ix:relationship" (y_roots [y_related] y_kids)) -> FootSpec.proper FootProps.env0 (il_notes f) (texts_of (il_facts f)) (rel_of x).
Proof.
  intros R. destruct (inline_case (y_read FootProps.env0 [y_related] y_kids) (fun f => map fst (il_notes f) = [u "n1"] /\ map fst (texts_of (il_facts f)) = [u "f1"; u "f2"]))
    as (f0 & E0 & S1 & S2); [vm_compute; split; reflexivity|].
  apply y_read_reads in E0.
  destruct (C103_same (FootModel.e_uri FootProps.env0) (FootModel.e_float FootProps.env0) _ _ _ _ _ _ _ _ (FootModel.e_set FootProps.env0) (FootModel.e_set FootProps.env0)
    (FootModel.e_repr FootProps.env0) (FootModel.e_repr FootProps.env0) FootProps.env0_sets FootProps.env0_sets f f0 R E0) as (_ & Ef & _ & En & _).
  rewrite Ef, En. clear R E0 Ef En f. intros x Hx.
  assert (E : resource_parts "ix:relationship" (y_roots [y_related] y_kids) = [y_related]) by (vm_compute; reflexivity). rewrite E in Hx. destruct Hx as [<-|[]].
  split; [|split; [|split; [|split]]].
  - exists (u "f1"). split; [vm_compute; reflexivity|]. split; [vm_compute; discriminate|]. intros w Hw. apply FootProofs.words_spec in Hw. vm_compute in Hw. destruct Hw as [<-|[]].
    rewrite S1, S2. split; [left; vm_compute; reflexivity|]. intros K. vm_compute in K. destruct K as [K|[]]. discriminate K.
  - exists (u "n1"). split; [vm_compute; reflexivity|]. split; [vm_compute; discriminate|]. intros w Hw. apply FootProofs.words_spec in Hw. vm_compute in Hw. destruct Hw as [<-|[]].
    rewrite S1. left. vm_compute. reflexivity.
  - intros s K. vm_compute in K. discriminate K.
  - intros s K. vm_compute in K. discriminate K.
  - exists (u "2"), 2%Q. split; [vm_compute; reflexivity|]. split; [vm_compute; discriminate|]. split; [vm_compute; reflexivity|]. intros F. discriminate F.
Qed.

(** All characteristics of its facts are exact. *)
Definition y_docs0 (more : list xml) (kids : list tree) : list xml := [holding (resource_parts "xbrli:context" (y_roots more kids))].
Lemma y_docs0_occurs x : occurs (y_docs0 [y_related] y_kids) x ->
  In x [Xml None [] [] None [InlineProps.i_context "c1"]; InlineProps.i_context "c1"; InlineProps.i_entity; InlineProps.i_identifier; InlineProps.i_period; InlineProps.i_instant].
Proof.
  intros (i & [<-|[]] & H).
  match type of H with In x ?l => match goal with |- In x ?r => assert (E : l = r) by (vm_compute; reflexivity) end end.
  rewrite <- E. exact H.
Qed.
Ltac y_each H := apply y_docs0_occurs in H; repeat (destruct H as [H|H]; [subst|]); [..|destruct H].
Example C99_example_exact rep :
  one_scheme (y_docs0 [y_related] y_kids) /\ one_explicit rep (y_docs0 [y_related] y_kids) /\ one_typed rep (y_docs0 [y_related] y_kids) /\
  plain_dimensions (y_docs0 [y_related] y_kids) /\ plain_periods (y_docs0 [y_related] y_kids) /\ no_period_word CtxProps.iso_date.
Proof.
  split; [|split; [|split; [|split; [|split; [|exact CtxProps.sample_no_period_word]]]]].
  - intros x y id s s' Hx Hy (i & E1 & E2 & E3) (j & F1 & F2 & F3).
    assert (i = InlineProps.i_identifier) by (y_each Hx; vm_compute in E1; first [discriminate|injection E1 as <-; reflexivity]).
    assert (j = InlineProps.i_identifier) by (y_each Hy; vm_compute in F1; first [discriminate|injection F1 as <-; reflexivity]).
    congruence.
  - intros x y dt mt d m d' m' Hx Hy (A1 & _). exfalso. y_each Hx; vm_compute in A1; discriminate A1.
  - intros x y dt v d d' Hx Hy (A1 & _). exfalso. y_each Hx; vm_compute in A1; discriminate A1.
  - intros x t Hx. y_each Hx; vm_compute; intros K; discriminate K.
  - intros x Hx. y_each Hx; intros n i t Hn; cbn [In] in Hn;
      destruct Hn as [<-|[<-|[<-|[]]]]; vm_compute; intros E1 E2 H; first [discriminate E1|injection E1 as <-; first [discriminate E2|injection E2 as <-;
      repeat (destruct H as [H|H]; [discriminate|]); destruct H]].
Qed.

(** *** References to roles *)

Definition y_reference : xml :=
  Xml (Some (u "{http://www.xbrl.org/2003/linkbase}roleRef"))
    [(u "{http://www.w3.org/1999/xlink}type", u "simple"); (u "{http://www.w3.org/1999/xlink}href", u "a.xsd#r"); (u "roleURI", u "r")]
    ((Some (u "xlink"), u "http://www.w3.org/1999/xlink") :: InlineProps.i_scope) None [].
Example C98_example : proper_reference (fun _ => true) y_reference.
Proof.
  split; [vm_compute; reflexivity|]. split; [vm_compute; reflexivity|]. split; [|vm_compute; discriminate].
  exists (u "a.xsd#r"). split; [vm_compute; reflexivity|]. split; [vm_compute; discriminate|reflexivity].
Qed.
(** With it the filing is read, and has a report about it. *)
Example C98_example_read : exists f, y_reads FootProps.env0 [y_reference; y_related] y_kids f /\
  map er_context (FilingModel.fl_errors (il_filing f)) = [Some y_reference].
Proof.
  destruct (inline_case (y_read FootProps.env0 [y_reference; y_related] y_kids) (fun f => map er_context (FilingModel.fl_errors (il_filing f)) = [Some y_reference])) as (f & E & S);
    [vm_compute; reflexivity|].
  exists f. split; [exact (y_read_reads _ _ _ _ E)|exact S].
Qed.

(** A continuation within the text that it continues is reported (and read twice). *)
Example C101_nested_example : exists f, y_reads FootProps.env0 [y_related] [y_text [y_continuation "k1"]; y_footnote] f /\
  map (fun r => (er_code r, er_context r)) (FilingModel.fl_errors (il_filing f)) =
    [(u "543", Some (plain (y_continuation "k1")))] /\
  map f_value (FilingModel.get_all_facts (il_filing f)) = [u "7"; u "hellolo"].
Proof.
  destruct (inline_case (y_read FootProps.env0 [y_related] [y_text [y_continuation "k1"]; y_footnote]) (fun f =>
    map (fun r => (er_code r, er_context r)) (FilingModel.fl_errors (il_filing f)) =
      [(u "543", Some (plain (y_continuation "k1")))] /\
    map f_value (FilingModel.get_all_facts (il_filing f)) = [u "7"; u "hellolo"])) as (f & E & S); [vm_compute; split; reflexivity|].
  exists f. split; [exact (y_read_reads _ _ _ _ E)|exact S].
Qed.

(** *** What stops the reading *)

(** A relationship without an order (which XBRL allows): the filing is not read, in no order of sets. *)
Definition y_unordered : xml := y_relationship [("fromRefs", "f1"); ("toRefs", "n1")]%string.
Theorem C102_order_refuted f : ~ y_reads FootProps.env0 [y_unordered] y_kids f.
Proof.
  intros R.
  assert (P : forall p, In p (fact_places (y_roots [y_unordered] y_kids)) -> usual_prefix p) by (apply usual_prefixes; vm_compute; reflexivity).
  assert (U : LinkSpec.all_usual (y_docs [y_unordered] y_kids)) by (apply (usual_as _ (dict_values FilingProps.x_trees)); [vm_compute; reflexivity|exact FilingProps.C91_example_usual]).
  pose proof (C102_orders _ _ _ _ _ _ _ _ _ _ R P U FootProps.env0_sets) as H.
  assert (E : resource_parts "ix:relationship" (y_roots [y_unordered] y_kids) = [y_unordered]) by (vm_compute; reflexivity).
  change (Forall (has_order (FootModel.e_float FootProps.env0)) (resource_parts "ix:relationship" (y_roots [y_unordered] y_kids))) in H.
  rewrite E in H. inversion H as [|? ? (s & q & K & _) _]. vm_compute in K. discriminate K.
Qed.

(** A comment in the text of a fact: the filing is not read either. *)
Definition y_comment : tree := Tree None [] InlineProps.i_scope (Some (u "to do")) [] (Some (u "lo")).
Definition y_commented : list tree :=
  [y_elem (InlineProps.ix "nonNumeric") [("name", "t:Cash"); ("contextRef", "c1"); ("id", "f2")]%string "hel" [y_comment] ""].
Theorem C99_comment_refuted f : ~ y_reads FootProps.env0 [] y_commented f.
Proof.
  intros R.
  assert (P : forall p, In p (fact_places (y_roots [] y_commented)) -> usual_prefix p) by (apply usual_prefixes; vm_compute; reflexivity).
  assert (U : LinkSpec.all_usual (y_docs [] y_commented)) by (apply (usual_as _ (dict_values FilingProps.x_trees)); [vm_compute; reflexivity|exact FilingProps.C91_example_usual]).
  set (p := nth 1 (fact_places (y_roots [] y_commented)) (Place 0 y_comment [])).
  assert (Hp : In p (fact_places (y_roots [] y_commented))) by (apply nth_In; vm_compute; repeat constructor).
  assert (Hc : fact_concept (FilingModel.repository_of (FilingModel.fl_elements (il_filing f))) (p_xml p) FilingProps.x_first).
  { destruct (inline_stages _ _ _ _ _ _ _ _ _ _ R) as (fuel & es1 & r & taken & s & s' & _ & _ & A & _).
    apply FilingStages.as_declared in A. clear R P U Hp.
    assert (D : ConceptModel.parse_report_elements (plain_trees (y_trees [] y_commented)) (ConceptModel.empty_rrepo, []) = Ok (FilingModel.fl_elements (il_filing f), es1)) by exact A. clear A.
    assert (K : match ConceptModel.parse_report_elements (plain_trees (y_trees [] y_commented)) (ConceptModel.empty_rrepo, []) with
      Ok r => get_typed_by_qname is_concept (FilingModel.repository_of (fst r)) (QName (u "urn:t") (u "t") (u "Cash")) = Ok FilingProps.x_first | Raise _ => False end)
      by (vm_compute; reflexivity).
    rewrite D in K. cbn [fst] in K. exists (u "t:Cash"), (QName (u "urn:t") (u "t") (u "Cash")).
    split; [vm_compute; reflexivity|]. split; [vm_compute; reflexivity|exact K]. }
  destruct (C99_no_comments _ _ _ _ _ _ _ _ _ _ R P U FootProps.env0_sets p FilingProps.x_first (InlineProps.i_context "c1") (u "c1") Hp) as (ts & _ & H1 & H2).
  - vm_compute. reflexivity.
  - exact Hc.
  - vm_compute. reflexivity.
  - assert (E : resource_parts "xbrli:context" (y_roots [] y_commented) = [InlineProps.i_context "c1"]) by (vm_compute; reflexivity).
    assert (G : In (InlineProps.i_context "c1") (resource_parts "xbrli:context" (y_roots [] y_commented))) by (rewrite E; left; reflexivity). exact G.
  - split; [vm_compute; reflexivity|]. split; vm_compute; discriminate.
  - specialize (H2 [p_tree p]). rewrite <- H2 in H1.
    + vm_compute in H1. discriminate H1.
    + exists []. split; [|reflexivity]. assert (E : attr (p_xml p) (u "continuedAt") = None) by (vm_compute; reflexivity). rewrite E. constructor.
Qed.

(** *** Two readings *)

(** About which unused continuation there is a report depends on the order of a set. *)
Definition y_env (set : list str -> list str) : FootModel.env :=
  FootModel.Env (FootModel.e_uri FootProps.env0) (FootModel.e_float FootProps.env0) set (FootModel.e_repr FootProps.env0).
Definition set1 : list str -> list str := nodup (list_eq_dec N.eq_dec).
Definition set2 (l : list str) : list str := rev (set1 l).
Lemma y_sets : FootSpec.lists_sets set1 /\ FootSpec.lists_sets set2.
Proof.
  split; [exact FootProps.env0_sets|]. intros l. destruct (FootProps.env0_sets l) as [H1 H2]. split; [apply NoDup_rev, H1|].
  intros x. unfold set2. rewrite <- in_rev. apply H2.
Qed.
Theorem C103_unused_refuted : ~ forall set1 set2 f1 f2, FootSpec.lists_sets set1 -> FootSpec.lists_sets set2 ->
  y_reads (y_env set1) [] [y_continuation "k1"; y_continuation "k2"] f1 -> y_reads (y_env set2) [] [y_continuation "k1"; y_continuation "k2"] f2 ->
  map er_context (FilingModel.fl_errors (il_filing f1)) = map er_context (FilingModel.fl_errors (il_filing f2)).
Proof.
  intros H. destruct y_sets as [S1 S2].
  destruct (inline_case (y_read (y_env set1) [] [y_continuation "k1"; y_continuation "k2"])
    (fun f => map er_context (FilingModel.fl_errors (il_filing f)) = [Some (plain (y_continuation "k1"))])) as (f1 & E1 & X1); [vm_compute; reflexivity|].
  destruct (inline_case (y_read (y_env set2) [] [y_continuation "k1"; y_continuation "k2"])
    (fun f => map er_context (FilingModel.fl_errors (il_filing f)) = [Some (plain (y_continuation "k2"))])) as (f2 & E2 & X2); [vm_compute; reflexivity|].
  specialize (H _ _ _ _ S1 S2 (y_read_reads _ _ _ _ E1) (y_read_reads _ _ _ _ E2)). rewrite X1, X2 in H. vm_compute in H. discriminate H.
Qed.

Print Assumptions C103_same.
Print Assumptions C103_same_content.
Print Assumptions C103_same_physical.
Print Assumptions C103_same_order.
Print Assumptions C102_order_refuted.
Print Assumptions C99_comment_refuted.
Print Assumptions C103_unused_refuted.
