(** Which table linkbases can be read (C59), by the elements of the documents. *)
From Verif Require Import Base CtxModel ErrProps TableModel TableProofs TableProps RuleModel FilingModel InlineFilingModel.

(** An element below a linkbase of this namespace, with a table among its children *)
Inductive table_link (roots : list xml) (link : xml) : Prop :=
| tl_link root table : In root roots -> x_tag root = Some (u "{http://xbrl.org/2003/linkbase}linkbase") -> In link (x_kids root) ->
    x_tag link = Some (u "{http://xbrl.org/2008/generic}link") -> In table (x_kids link) -> x_tag table = Some (u "{http://xbrl.org/2014/table}table") ->
    table_link roots link.
Lemma tag_is_iff t x : tag_is t x = true <-> x_tag x = Some t.
Proof.
  unfold tag_is. destruct (x_tag x) as [s|]; cbn [opt_eqb]; [|split; discriminate]. destruct (str_eqb_spec s t) as [->|N]; split; intros H; try discriminate H; try reflexivity. congruence.
Qed.
Lemma found_links roots link : In link (find_table_linkbase_elements roots) <-> table_link roots link.
Proof.
  unfold find_table_linkbase_elements. rewrite in_flat_map. split.
  - intros (root & Hr & H). destruct (tag_is _ root) eqn:E; [|destruct H]. apply tag_is_iff in E. apply filter_In in H as [Hk H].
    apply andb_prop in H as [H1 H2]. apply tag_is_iff in H1. apply existsb_exists in H2 as (t & Ht & H2). apply tag_is_iff in H2. exact (tl_link _ _ root t Hr E Hk H1 Ht H2).
  - intros [root t Hr E Hk H1 Ht H2]. exists root. split; [exact Hr|]. apply tag_is_iff in E. rewrite E. apply filter_In. split; [exact Hk|].
    apply tag_is_iff in H1. rewrite H1. cbn [andb]. apply existsb_exists. exists t. split; [exact Ht|]. apply tag_is_iff. exact H2.
Qed.
(** The tables of a filing are read to their end exactly when every such element can be read and none of them gives a table. *)
Theorem C59_opens_iff {T} (parse_element : xml -> res (list (str * T))) (roots : list xml) :
  (exists tables, parse_table_linkbases parse_element roots = Ok tables) <-> forall link, table_link roots link -> parse_element link = Ok [].
Proof.
  unfold parse_table_linkbases. split.
  - intros (tables & H) link L. apply found_links in L. apply bind_ok in H as (sets & E & H).
    assert (C : concat sets = []) by (destruct (concat sets) as [|[role t] l]; [reflexivity|discriminate H]).
    clear H. revert sets E C. induction (find_table_linkbase_elements roots) as [|x l IH]; intros sets E C; [destruct L|].
    cbn [map_res] in E. apply bind_ok in E as (y & Ey & E). apply bind_ok in E as (ys & Es & [= <-]). cbn [concat] in C. apply app_eq_nil in C as [-> C].
    destruct L as [->|L]; [exact Ey|exact (IH L ys Es C)].
  - intros H. exists []. assert (E : exists sets, map_res parse_element (find_table_linkbase_elements roots) = Ok sets /\ concat sets = []).
    { assert (G : forall link, In link (find_table_linkbase_elements roots) -> parse_element link = Ok []) by (intros link L; apply H, found_links, L).
      induction (find_table_linkbase_elements roots) as [|x l IH]; [exists []; split; reflexivity|]. destruct IH as (sets & E & C); [intros link L; apply G; right; exact L|].
      exists ([] :: sets). cbn [map_res]. rewrite (G x (or_introl eq_refl)). cbn [bind]. rewrite E. cbn [bind]. split; [reflexivity|exact C]. }
    destruct E as (sets & E & C). rewrite E. cbn [bind]. rewrite C. reflexivity.
Qed.
Definition one_table : xml :=
  Xml (Some (u "{http://xbrl.org/2003/linkbase}linkbase")) [] [] None [Xml (Some (u "{http://xbrl.org/2008/generic}link")) [] [] None [Xml (Some (u "{http://xbrl.org/2014/table}table")) [] [] None []]].
Example C59_example_opens : exists link, table_link [one_table] link /\
  parse_table_linkbases (T := unit) (fun _ => Ok [(u "role", tt)]) [one_table] = Raise TypeError /\ parse_table_linkbases (T := unit) (fun _ => Ok []) [one_table] = Ok [].
Proof.
  exists (Xml (Some (u "{http://xbrl.org/2008/generic}link")) [] [] None [Xml (Some (u "{http://xbrl.org/2014/table}table")) [] [] None []]). split; [|split; vm_compute; reflexivity].
  eapply (tl_link _ _ one_table); [left; reflexivity|reflexivity|left; reflexivity|reflexivity|left; reflexivity|reflexivity].
Qed.


(** ** Filings *)

(** A table with a label, in such an element *)
Definition labelled_table (roots : list xml) : Prop :=
  exists link table l, table_link roots link /\ In table (x_kids link) /\ x_tag table = Some (u "{http://xbrl.org/2014/table}table") /\
    attr table (u "{http://www.w3.org/1999/xlink}label") = Some l /\ l <> [].

Lemma add_unique_kept l n d k : In k (map fst d) -> In k (map fst (add_unique l n d)).
Proof.
  intros H. unfold add_unique. destruct l as [[|c l]|]; [exact H| |exact H]. generalize (c :: l). clear c l. intros l.
  induction d as [|[k' v] d IH]; [destruct H|]. cbn [dict_set]. destruct (str_eqb k' l); cbn [map fst In] in *; [exact H|]. destruct H as [H|H]; [left; exact H|right; exact (IH H)].
Qed.
Lemma add_unique_new l n d : l <> [] -> In l (map fst (add_unique (Some l) n d)).
Proof.
  intros H. unfold add_unique. destruct l as [|c l]; [congruence|]. generalize (c :: l). clear H c l. intros l.
  induction d as [|[k' v] d IH]; cbn [dict_set]; [left; reflexivity|]. destruct (str_eqb_spec k' l) as [->|N]; cbn [map fst In]; [left; reflexivity|right; exact IH].
Qed.
Lemma collect_kept items : forall n L k, In k (map fst (l_tables L)) -> In k (map fst (l_tables (TableModel.collect items n L))).
Proof.
  induction items as [|[r|a] items IH]; intros n L k H; cbn [TableModel.collect]; [exact H| |apply IH; exact H]. apply IH.
  destruct (r_class r); cbn [l_tables]; try exact H. apply add_unique_kept. exact H.
Qed.
Lemma collect_table items r l : In (IResource r) items -> r_class r = CTable -> r_label r = Some l -> l <> [] -> forall n L, In l (map fst (l_tables (TableModel.collect items n L))).
Proof.
  intros Hin Hc Hl Hn. induction items as [|i items IH]; intros n L; [destruct Hin|]. destruct Hin as [->|Hin].
  - cbn [TableModel.collect]. rewrite Hc. apply collect_kept. cbn [l_tables]. rewrite Hl. apply add_unique_new. exact Hn.
  - destruct i as [r'|a]; cbn [TableModel.collect]; apply IH; exact Hin.
Qed.
Lemma children_table rep explicit aspects role kids : forall fs r x l, RuleModel.read_children rep explicit aspects role fs kids = Ok r -> In x kids ->
  x_tag x = Some (u "{http://xbrl.org/2014/table}table") -> attr x (u "{http://www.w3.org/1999/xlink}label") = Some l ->
  exists y, In (IResource y) (map fst (fst r)) /\ r_class y = CTable /\ r_label y = Some l.
Proof.
  induction kids as [|k kids IH]; intros fs r x l H Hin Ht Hl; [destruct Hin|]. cbn [RuleModel.read_children] in H.
  apply bind_ok in H as (e & He & H). apply bind_ok in H as ([m gs] & Hm & H). destruct Hin as [->|Hin].
  - unfold RuleModel.parse_resource in He. assert (T : TableModel.tag_is (RuleModel.table_prefix (u "table")) x = true) by (apply tag_is_iff; rewrite Ht; reflexivity).
    cbv zeta in He. rewrite T in He. apply bind_ok in He as (o & _ & He). injection He as <-. injection H as <-.
    exists (Resource CTable o (RuleModel.parse_label x)). cbn [fst map]. split; [left; reflexivity|]. split; [reflexivity|]. exact Hl.
  - destruct (IH _ _ x l Hm Hin Ht Hl) as (y & Hy & C). exists y. split; [|exact C]. injection H as <-. cbn [fst] in *.
    destruct e; [right; exact Hy| |]; (destruct (RuleModel.arc_of k); [right; exact Hy|exact Hy]).
Qed.
Lemma tables_stop fuel r aspects docs t : FilingModel.read_tables fuel r aspects docs = Ok t -> ~ labelled_table docs.
Proof.
  intros H (link & table & l & L & Hk & Ht & Hl & Hn). unfold FilingModel.read_tables in H.
  pose proof (proj1 (C59_opens_iff _ _) (ex_intro _ t H) link L) as P. cbv beta in P. apply bind_ok in P as (tl & E & P). injection P as P.
  unfold RuleModel.parse_table_linkbase_element in E. cbv zeta in E. apply bind_ok in E as ([m fs] & E1 & E). apply bind_ok in E as ([[tables h] st] & E2 & E). injection E as <-. cbn [RuleModel.tl_tables] in P.
  destruct (children_table _ _ _ _ _ _ _ _ _ E1 Hk Ht Hl) as (y & Hy & C1 & C2). cbn [fst] in Hy.
  unfold parse_link in E2. cbv zeta in E2. apply bind_ok in E2 as (h' & _ & E2). apply bind_ok in E2 as (st' & _ & E2). injection E2 as E2 _ _.
  pose proof (collect_table _ y l Hy C1 C2 Hn 0 (Labels [] [] [])) as K. rewrite <- E2 in P. apply map_eq_nil in P. apply map_eq_nil in P. rewrite P in K. destruct K.
Qed.
(** A filing with a labelled table in such an element cannot be read, whatever else it has; nor an inline filing. *)
Theorem C59_no_filing_refuted parse_date element_str number edge_order root_order fuel shuffle trees es :
  labelled_table (dict_values trees) -> forall f, FilingModel.parse_filing parse_date element_str number edge_order root_order fuel shuffle trees es <> Ok f.
Proof.
  intros L f H. unfold FilingModel.parse_filing in H. cbv zeta in H. apply bind_ok in H as (r & _ & H). apply bind_ok in H as (s & _ & H). apply bind_ok in H as (n & _ & H).
  apply bind_ok in H as (t & H & _). exact (tables_stop _ _ _ _ _ H L).
Qed.
Theorem C59_no_inline_filing_refuted env text_str fuel parse_date py_float era_valid element_str number edge_order root_order shuffle trees es :
  labelled_table (map plain (dict_values trees)) ->
  forall f, InlineFilingModel.parse_inline_filing env text_str fuel parse_date py_float era_valid element_str number edge_order root_order shuffle trees es <> Ok f.
Proof.
  intros L f H. unfold InlineFilingModel.parse_inline_filing in H. cbv zeta in H. apply bind_ok in H as (r & _ & H). apply bind_ok in H as ([[res [[taken cs] fs]] s] & _ & H). cbn [fst] in H.
  apply bind_ok in H as (g & _ & H). apply bind_ok in H as (n & _ & H). apply bind_ok in H as (t & H & _). exact (tables_stop _ _ _ _ _ H L).
Qed.
Example C59_example_no_filing : labelled_table [Xml (Some (u "{http://xbrl.org/2003/linkbase}linkbase")) [] [] None
  [Xml (Some (u "{http://xbrl.org/2008/generic}link")) [] [] None [Xml (Some (u "{http://xbrl.org/2014/table}table")) [(u "{http://www.w3.org/1999/xlink}label", u "t")] [] None []]]].
Proof.
  eexists _, _, (u "t"). split; [eapply tl_link; [left; reflexivity|reflexivity|left; reflexivity|reflexivity|left; reflexivity|reflexivity]|].
  split; [left; reflexivity|]. split; [reflexivity|]. split; [vm_compute; reflexivity|discriminate].
Qed.

Print Assumptions C59_opens_iff.
Print Assumptions C59_no_filing_refuted.
Print Assumptions C59_no_inline_filing_refuted.
