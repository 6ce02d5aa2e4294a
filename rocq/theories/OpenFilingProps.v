(** Property C111: opening a path gives what is written in the documents that can be reached from it. *)
From Coq Require Import QArith Permutation.
From Verif Require Import Base QNameModel ErrBase ErrModel DateModel CtxModel CtxSpec CtxProofs NetSpec DtsModel DtsSpec DtsLoad DtsProps DtsProps OpenModel OpenSpec OpenProps OpenFilingModel OpenFilingSpec.
From Verif Require FootSpec InlineModel InlineSpec InlineProofs InlineFilingSpec InlineFilingProps InlineSameProps FootProps CtxProps CtxReportSpec ConceptSpec ConceptModel ConceptProofs ConceptLoad LinkSpec LinkProofs DtsProps CacheSpec CacheProps OrderSpec OrderProofs OrderProps InlineFilingModel InlineFilingProofs.
From Verif Require Import FilingModel FilingSpec FilingProofs FilingProps.
Local Open Scope nat_scope.

Lemma in_documents {tree} (w : world tree) r U fuel paths s : some_order (w_order w) -> separate w r U -> (forall x, In x paths -> In (resolve w r x (u ".")) U) ->
  length U < fuel -> load_all w r fuel paths empty_cache = Ok s ->
  NoDup (map fst (DtsModel.trees s)) /\ forall k t, In (k, t) (DtsModel.trees s) <->
    exists v, (reachable (refers w r) (map (fun x => resolve w r x (u ".")) paths) v /\ loads_as w v t) /\ k = normalize_uri v.
Proof.
  intros Ho Hs He F E. destruct (DtsProps.C35_exact_partial w r U fuel paths s Ho Hs He F E) as (N & K & T). split; [exact N|]. intros k t. split.
  - intros H. assert (Hk : In k (dict_keys (DtsModel.trees s))) by (apply in_map_iff; exists (k, t); auto). apply K in Hk as (v & R & ->).
    exists v. split; [|reflexivity]. split; [exact R|]. destruct (T v R) as (t' & L & G). apply (OrderProps.in_get _ _ _ N) in H. rewrite G in H. injection H as ->. exact L.
  - intros (v & (R & L) & ->). destruct (T v R) as (t' & L' & G). rewrite (OrderProps.loads_one _ _ _ _ L L'). apply (OrderProps.in_get _ _ _ N). exact G.
Qed.

Section Opened.
Variable lib : library.
Variable so : set_orders.
Variable fs : fsys.
Variable w : world InlineFilingModel.tree.
Variable parse_file : str -> option xml.
Variable fuel : nat.
Variable path : str.
Variables files paths : list str.
Variable r : rules.
Variable es : repo xml.
Variable U : list str.
Hypothesis Horders : LinkSpec.orders (so_edges so) (so_roots so).
Hypothesis Hshuffle : some_order (so_shuffle so).
Hypothesis Hsets : some_order (w_order w).
Hypothesis Hload : load_path fs fuel path = Ok files.
Hypothesis Hcatalog : parse_catalog parse_file files = Ok (paths, r, es).
Hypothesis Hseparate : separate w r U.
Hypothesis Hpaths : forall x, In x paths -> In (resolve w r x (u ".")) U.
Hypothesis Hfuel : length U < fuel.
Notation opens := (fun o => exists left, open_filing lib so fs w parse_file fuel [] path = Ok (o, left)).
Notation reads := (FilingProps.reads (lb_date lib) (lb_str lib) (lb_number lib)).
Notation reads_inline := (InlineFilingProofs.reads_inline (lb_env lib) (lb_tostring lib) (lb_date lib) (lb_float lib) (lb_era lib) (lb_str lib) (lb_number lib)).

(** What is opened is what is read in all the documents that can be reached, and in no other. *)
Theorem C111_documents_partial o : opens o -> exists docs, all_documents w r paths docs /\
  match o with
  | OpenedXml f => (forall x, In x paths -> xml_file x) /\ reads (map (fun p => (fst p, InlineFilingModel.plain (snd p))) docs) es f
  | OpenedInline f => (exists x, In x paths /\ ~ xml_file x) /\ reads_inline docs es f
  end.
Proof.
  intros (kept & H). unfold open_filing, open_path, create_parser, open_context in H. rewrite Hload in H. cbn [bind] in H.
  destruct files as [|p l]; [discriminate H|]. rewrite Hcatalog in H. cbn [bind] in H.
  destruct (load_all w r fuel paths (Cache [] [])) as [s|] eqn:El; [|discriminate H]. cbn [bind] in H.
  exists (DtsModel.trees s). split; [exact (in_documents w r U fuel paths s Hsets Hseparate Hpaths Hfuel El)|].
  destruct (forallb is_xml_file paths) eqn:Ex.
  - cbn [bind parse_opened] in H. destruct (parse_filing _ _ _ _ _ _ _ _ _) as [f|] eqn:Ef; [|discriminate H]. cbn [bind] in H. injection H as <- _.
    split; [intros x Hx; apply is_xml_file_spec; rewrite forallb_forall in Ex; exact (Ex x Hx)|].
    exists (so_edges so), (so_roots so), fuel, (so_shuffle so). split; [exact Horders|]. split; [exact Hshuffle|exact Ef].
  - destruct (forallb is_known_file paths); [|discriminate H]. cbn [bind parse_opened] in H.
    destruct (InlineFilingModel.parse_inline_filing _ _ _ _ _ _ _ _ _ _ _ _ _) as [f|] eqn:Ef; [|discriminate H]. cbn [bind] in H. injection H as <- _.
    split.
    + clear -Ex. induction paths as [|x l IH]; [discriminate Ex|]. cbn [forallb] in Ex. destruct (is_xml_file x) eqn:E.
      * destruct (IH Ex) as (y & Hy & Hn). exists y. split; [right; exact Hy|exact Hn].
      * exists x. split; [left; reflexivity|]. rewrite <- is_xml_file_spec. congruence.
    + exists fuel, (so_edges so), (so_roots so), (so_shuffle so). split; [exact Horders|]. split; [exact Hshuffle|exact Ef].
Qed.

(** A document that cannot be read, wherever it is referred to, makes opening fail. *)
Theorem C111_missing_partial : ~ complete w r paths -> forall o, ~ opens o.
Proof.
  intros Hn o (kept & H). apply Hn. unfold open_filing, open_path, create_parser, open_context in H. rewrite Hload in H. cbn [bind] in H.
  destruct files as [|p l]; [discriminate H|]. rewrite Hcatalog in H. cbn [bind] in H.
  destruct (load_all w r fuel paths (Cache [] [])) as [s|] eqn:El; [|discriminate H].
  exact (proj1 (proj1 (DtsProps.C35_succeeds_iff w r U fuel paths Hsets Hseparate Hpaths Hfuel)) (ex_intro _ s El)).
Qed.

Notation plain := InlineFilingModel.plain.
Let plain_docs (docs : list (str * InlineFilingModel.tree)) : list (str * xml) := map (fun p => (fst p, plain (snd p))) docs.

Lemma plain_in docs : all_documents w r paths docs -> forall x, In x (dict_values (plain_docs docs)) <-> exists v t, document_of_path w r paths v t /\ x = plain t.
Proof.
  intros (_ & H) x. unfold dict_values, plain_docs. rewrite map_map. cbn [snd]. rewrite in_map_iff. split.
  - intros ([k t] & <- & Hk). apply H in Hk as (v & Hv & _). exists v, t. auto.
  - intros (v & t & Hv & ->). exists (normalize_uri v, t). split; [reflexivity|]. apply H. exists v. auto.
Qed.
Lemma decls_in docs : all_documents w r paths docs -> forall d, In d (ConceptSpec.all_decls (plain_docs docs)) <-> exists v t, document_of_path w r paths v t /\ In d (ConceptSpec.decls_of (plain t)).
Proof.
  intros H d. unfold ConceptSpec.all_decls. rewrite in_flat_map. split.
  - intros ([k x] & Hk & Hd). cbn [snd] in Hd. assert (Hx : In x (dict_values (plain_docs docs))) by (apply in_map_iff; exists (k, x); auto).
    apply (plain_in docs H) in Hx as (v & t & Hv & ->). exists v, t. auto.
  - intros (v & t & Hv & Hd). exists (normalize_uri v, plain t). split; [|exact Hd]. apply in_map_iff. exists (normalize_uri v, t). split; [reflexivity|].
    apply H. exists v. auto.
Qed.
Lemma plain_keys docs : all_documents w r paths docs -> NoDup (map fst (plain_docs docs)).
Proof. intros (H & _). unfold plain_docs. rewrite map_map. exact H. Qed.

Lemma prefixes_docs : (forall v t, document_of_path w r paths v t -> ConceptLoad.prefixes_usual [(v, plain t)]) ->
  forall docs, all_documents w r paths docs -> ConceptLoad.prefixes_usual (plain_docs docs).
Proof.
  intros Hprefixes docs H root tns x Hx. apply (decls_in docs H) in Hx as (v & t & Hv & Hx). apply (Hprefixes v t Hv root tns x).
  unfold ConceptSpec.all_decls. cbn [flat_map snd]. rewrite app_nil_r. exact Hx.
Qed.
Lemma element_declared docs els : all_documents w r paths docs ->
  (forall q id k, In (q, id, k) (map (fun e => (e_name e, e_id e, e_kind e)) els) <-> declared (plain_docs docs) q id k) ->
  forall e, In e els -> exists v t tns x, document_of_path w r paths v t /\
    In (plain t, tns, x) (ConceptSpec.decls_of (plain t)) /\ ConceptSpec.named (plain t, tns, x) (e_name e) /\ e_id e = attr x (u "id") /\ ConceptSpec.declares x (e_kind e).
Proof.
  intros A Hd e He.
  assert (H : In (e_name e, e_id e, e_kind e) (map (fun e => (e_name e, e_id e, e_kind e)) els)) by (apply in_map_iff; exists e; auto).
  apply Hd in H as (before & after & root & tns & x & E & Hn & Hi & Hk & _).
  assert (Hx : In (root, tns, x) (ConceptSpec.all_decls (plain_docs docs))) by (rewrite E; apply in_elt).
  apply (decls_in docs A) in Hx as (v & t & Hv & Hx). assert (Er : root = plain t) by (clear -Hx; unfold ConceptSpec.decls_of in Hx; destruct (attr (plain t) (u "targetNamespace")); [apply in_map_iff in Hx as (z & E & _); congruence|destruct Hx]).
  subst root. exists v, t, tns, x. auto.
Qed.
Lemma declaration_kept docs els : all_documents w r paths docs -> OrderSpec.names_once (plain_docs docs) ->
  (forall q id k, In (q, id, k) (map (fun e => (e_name e, e_id e, e_kind e)) els) <-> declared (plain_docs docs) q id k) ->
  forall v t tns x q, document_of_path w r paths v t -> In (plain t, tns, x) (ConceptSpec.decls_of (plain t)) -> ConceptSpec.named (plain t, tns, x) q -> ~ ConceptSpec.makes_nothing (plain t, tns, x) ->
  exists e, In e els /\ e_name e = q /\ e_id e = attr x (u "id") /\ ConceptSpec.declares x (e_kind e).
Proof.
  intros A Ho Hels v t tns x q Hv Hx Hn Hm.
  assert (Hd : In (plain t, tns, x) (ConceptSpec.all_decls (plain_docs docs))) by (apply (decls_in docs A); exists v, t; auto).
  apply in_split in Hd as (before & after & E).
  assert (K : exists k, ConceptSpec.declares x k).
  { destruct (ConceptProofs.create_cases x (QNameModel.QName [] [] []) []) as [(k & _ & K & _)|[[K _]|[K _]]]; [exists k; exact K|exists KConcept; exact K|].
    exfalso. apply Hm. left. exact K. }
  destruct K as (k & K).
  assert (D : declared (plain_docs docs) q (attr x (u "id")) k).
  { exists before, after, (plain t), tns, x. split; [exact E|]. split; [exact Hn|]. split; [reflexivity|]. split; [exact K|]. split; [exact Hm|].
    intros d Hd Hq. apply in_split in Hd as (b1 & b2 & ->). rewrite <- app_assoc in E. cbn [app] in E. 
    destruct (Ho b1 d b2 (plain t, tns, x) after q E Hq Hn) as [X|X]; [exact X|contradiction]. }
  apply Hels in D. apply in_map_iff in D as (e & Ee & He). injection Ee as E1 E2 E3.
  exists e. split; [exact He|]. split; [exact E1|]. split; [exact E2|]. rewrite E3. exact K.
Qed.

(** ** XML filings *)

Section Xml.
Variable f : filing.
Hypothesis Hopens : opens (OpenedXml f).
Lemma opened_docs : exists docs, all_documents w r paths docs /\ reads (plain_docs docs) es f.
Proof. destruct (C111_documents_partial _ Hopens) as (docs & A & _ & B). exists docs. auto. Qed.
Section Elements.
Hypothesis Hprefixes : forall v t, document_of_path w r paths v t -> ConceptLoad.prefixes_usual [(v, plain t)].

(** Every report element is declared in one of the documents. *)
Theorem C111_elements_partial e : In e (get_all_report_elements f) -> exists v t tns x, document_of_path w r paths v t /\
  In (plain t, tns, x) (ConceptSpec.decls_of (plain t)) /\ ConceptSpec.named (plain t, tns, x) (e_name e) /\ e_id e = attr x (u "id") /\ ConceptSpec.declares x (e_kind e).
Proof.
  destruct opened_docs as (docs & A & R). apply (element_declared docs _ A). exact (C93_elements _ _ _ _ _ _ R (plain_keys docs A) (prefixes_docs Hprefixes docs A)).
Qed.
(** And every declaration of the documents that makes something makes a report element, if names are not used twice. *)
Theorem C111_declared_partial v t tns x q : (forall docs, all_documents w r paths docs -> OrderSpec.names_once (plain_docs docs)) ->
  document_of_path w r paths v t -> In (plain t, tns, x) (ConceptSpec.decls_of (plain t)) -> ConceptSpec.named (plain t, tns, x) q -> ~ ConceptSpec.makes_nothing (plain t, tns, x) ->
  exists e, In e (get_all_report_elements f) /\ e_name e = q /\ e_id e = attr x (u "id") /\ ConceptSpec.declares x (e_kind e).
Proof.
  intros Ho. destruct opened_docs as (docs & A & R). apply (declaration_kept docs _ A (Ho docs A)). exact (C93_elements _ _ _ _ _ _ R (plain_keys docs A) (prefixes_docs Hprefixes docs A)).
Qed.
End Elements.

Section Facts.
Hypothesis Halike : forall docs, all_documents w r paths docs -> OrderSpec.alike (repository_of (fl_elements f)) (dict_values (plain_docs docs)).
Hypothesis Hplain : forall docs, all_documents w r paths docs -> OrderSpec.plainly_written (dict_values (plain_docs docs)).
Hypothesis Hword : no_period_word (lb_date lib).
Let written := OrderProps.fact_is (lb_date lib) (repository_of (fl_elements f)).

(** Every fact is written in one of the documents. *)
Theorem C111_facts_partial y : In y (get_all_facts f) \/ In y (fr_without_id (fl_facts f)) ->
  exists v t x, document_of_path w r paths v t /\ In x (fact_elements (plain t)) /\ written (plain t, x) y.
Proof.
  intros Hy. destruct opened_docs as (docs & A & R).
  destruct (OrderProps.exact_facts _ _ _ _ _ _ R (Halike docs A) (Hplain docs A) Hword) as (os & F & E).
  assert (Hr : repo_facts (fl_facts f) y) by exact Hy. rewrite E in Hr. apply folded_facts in Hr as [Hr|[[]|[]]]. apply somes_in in Hr.
  assert (G : exists ix, In ix (all_fact_elements (dict_values (plain_docs docs))) /\ written ix y).
  { clear -F Hr. induction F as [|ix o l l' [H _] H' IH]; [destruct Hr|]. destruct Hr as [->|Hr]; [exists ix; split; [left; reflexivity|exact H]|].
    destruct (IH Hr) as (ix' & I & J). exists ix'. split; [right; exact I|exact J]. }
  destruct G as ([i x] & Hi & Hw). unfold all_fact_elements in Hi. apply in_flat_map in Hi as (i' & Hi' & Hx). apply in_map_iff in Hx as (x' & Ex & Hx). injection Ex as -> ->.
  apply (plain_in docs A) in Hi' as (v & t & Hv & ->). exists v, t, x. auto.
Qed.
(** And every fact element of the documents that names a concept and a context gives a fact, if ids are not used twice. *)
Theorem C111_written_partial v t x : (forall docs, all_documents w r paths docs -> fact_ids_distinct (dict_values (plain_docs docs))) ->
  document_of_path w r paths v t -> In x (fact_elements (plain t)) -> CtxReportSpec.has_fact (repository_of (fl_elements f)) (plain t) x = true ->
  exists y, written (plain t, x) y /\ match attr x (u "id") with
    | Some id => In y (get_all_facts f) /\ facts_get_by_id (fl_facts f) id = Ok y
    | None => In y (fr_without_id (fl_facts f))
    end.
Proof.
  intros Hd Hv Hx Hh. destruct opened_docs as (docs & A & R). specialize (Hd docs A).
  destruct (OrderProps.exact_facts _ _ _ _ _ _ R (Halike docs A) (Hplain docs A) Hword) as (os & F & E).
  assert (Hi : In (plain t, x) (all_fact_elements (dict_values (plain_docs docs)))).
  { unfold all_fact_elements. apply in_flat_map. exists (plain t). split; [apply (plain_in docs A); exists v, t; auto|]. apply in_map_iff. exists x. auto. }
  apply in_split in Hi as (a & b & Ea). rewrite Ea in F. apply Forall2_app_inv_l in F as (fa & fb & HA & HB & ->).
  inversion HB as [|ix o lb fb' [Hy Ho] HB']; subst. cbn [fst snd] in Hy, Ho. destruct o as [y|]; [|exfalso; apply (proj2 Ho Hh); reflexivity].
  exists y. split; [exact Hy|].
  assert (Ey : f_id y = attr x (u "id")) by (destruct Hy as (cid & xc & e & us & _ & _ & _ & _ & _ & _ & Hid & _); exact Hid).
  assert (K : kept (fl_facts f) y).
  { rewrite E. unfold somes. rewrite flat_map_app, fold_left_app. cbn [flat_map app fold_left]. apply kept_rest; [apply kept_new|]. intros z id Hz Eid.
    apply somes_in in Hz. assert (Hz' : exists ix, In ix b /\ f_id z = attr (snd ix) (u "id")).
    { clear -HB' Hz. induction HB' as [|ix z' l l' [H _] H' IH]; [destruct Hz|]. destruct Hz as [->|Hz].
      - exists ix. split; [left; reflexivity|]. destruct H as (cid & xc & e & us & _ & _ & _ & _ & _ & _ & Hid & _). exact Hid.
      - destruct (IH Hz) as (ix' & Hin & E). exists ix'. split; [right; exact Hin|exact E]. }
    destruct Hz' as (ix & Hin & ->). apply in_split in Hin as (b1 & b2 & ->). eapply (Hd a (plain t, x) b1 ix b2); [exact Ea|]. cbn [snd]. congruence. }
  destruct (attr x (u "id")) as [id|]; [|unfold kept in K; rewrite Ey in K; exact K].
  destruct (kept_get _ _ id K Ey) as [K1 K2]. split; assumption.
Qed.
End Facts.
End Xml.

(** ** Inline filings *)

Section Inline.
Variable f : InlineFilingModel.inline_filing.
Hypothesis Hopens : opens (OpenedInline f).
Notation filing := (InlineFilingModel.il_filing f).

Lemma opened_inline : exists docs, all_documents w r paths docs /\ reads_inline docs es f.
Proof. destruct (C111_documents_partial _ Hopens) as (docs & A & _ & B). exists docs. auto. Qed.

Section Elements.
Hypothesis Hprefixes : forall v t, document_of_path w r paths v t -> ConceptLoad.prefixes_usual [(v, plain t)].
Theorem C111_inline_elements_partial e : In e (get_all_report_elements filing) -> exists v t tns x, document_of_path w r paths v t /\
  In (plain t, tns, x) (ConceptSpec.decls_of (plain t)) /\ ConceptSpec.named (plain t, tns, x) (e_name e) /\ e_id e = attr x (u "id") /\ ConceptSpec.declares x (e_kind e).
Proof.
  destruct opened_inline as (docs & A & R). apply (element_declared docs _ A). exact (InlineFilingProps.C100_elements _ _ _ _ _ _ _ _ _ _ R (proj1 A) (prefixes_docs Hprefixes docs A)).
Qed.
Theorem C111_inline_declared_partial v t tns x q : (forall docs, all_documents w r paths docs -> OrderSpec.names_once (plain_docs docs)) ->
  document_of_path w r paths v t -> In (plain t, tns, x) (ConceptSpec.decls_of (plain t)) -> ConceptSpec.named (plain t, tns, x) q -> ~ ConceptSpec.makes_nothing (plain t, tns, x) ->
  exists e, In e (get_all_report_elements filing) /\ e_name e = q /\ e_id e = attr x (u "id") /\ ConceptSpec.declares x (e_kind e).
Proof.
  intros Ho. destruct opened_inline as (docs & A & R). apply (declaration_kept docs _ A (Ho docs A)). exact (InlineFilingProps.C100_elements _ _ _ _ _ _ _ _ _ _ R (proj1 A) (prefixes_docs Hprefixes docs A)).
Qed.
End Elements.

Section Facts.
Hypothesis Hlists : FootSpec.lists_sets (FootModel.e_set (lb_env lib)).
Notation roots docs := (InlineFilingModel.instance_roots (dict_values docs)).
Notation contexts docs := (InlineFilingSpec.resource_parts "xbrli:context" (roots docs)).
Let rep := repository_of (fl_elements filing).
Hypothesis Hix : forall docs, all_documents w r paths docs -> forall p, In p (InlineFilingModel.fact_places (roots docs)) -> InlineFilingSpec.usual_prefix p.
Hypothesis Husual : forall docs, all_documents w r paths docs -> LinkSpec.all_usual (dict_values (plain_docs docs)).
Hypothesis Hsame : forall docs, all_documents w r paths docs -> let docs0 := [InlineSpec.holding (contexts docs)] in
  one_scheme docs0 /\ one_explicit rep docs0 /\ one_typed rep docs0 /\ plain_dimensions docs0 /\ plain_periods docs0.
Hypothesis Hword : no_period_word (lb_date lib).

(** Every fact is written in an inline element of one of the documents. *)
Theorem C111_inline_facts_partial y : In y (get_all_facts filing) \/ In y (fr_without_id (fl_facts filing)) ->
  exists docs v t name x above n units iy reports,
    all_documents w r paths docs /\ document_of_path w r paths v t /\ In name ["nonNumeric"; "nonFraction"]%string /\ InlineFilingSpec.ix_element [t] name x above /\
    InlineModel.n_el n = plain x /\ InlineModel.if_fact iy = y /\
    InlineSpec.inline_fact rep (lb_float lib) (lb_era lib) (contexts docs) units
      entity_exact (period_exact (lb_date lib)) (explicit_exact rep) (typed_exact rep) n iy reports.
Proof.
  intros Hy. destruct opened_inline as (docs & A & R). destruct (Hsame docs A) as (S1 & S2 & S3 & S4 & S5).
  destruct (InlineFilingProps.C99_exact_partial _ _ _ _ _ _ _ _ _ _ R (Hix docs A) (Husual docs A) Hlists S1 S2 S3 S4 S5 Hword) as (nodes & us & os & _ & _ & _ & F1 & _ & F3 & F4).
  destruct (InlineFilingProps.C99_listed _ _ _ _ _ _ _ _ _ _ R) as (L1 & L2). rewrite L1, L2 in Hy.
  assert (Hin : exists iy, InlineModel.if_fact iy = y /\ In iy (somes (map fst os))).
  { destruct F4 as [T1 T2]. destruct Hy as [Hy|Hy]; apply in_map_iff in Hy as (q & Eq & Hq).
    - destruct q as [i iy]. cbn [snd] in Eq. exists iy. split; [exact Eq|].
      apply (dict_get_in_nodup _ str_eqb_spec) in Hq; [|exact (InlineFilingProps.f_own _ _ _ _ _ _ _ _ _ _ R)]. apply T2 in Hq as (b & d & -> & _). apply in_elt.
    - exists q. split; [exact Eq|]. rewrite T1 in Hq. apply filter_In in Hq. tauto. }
  destruct Hin as (iy & Ey & Hin). apply somes_in, in_map_iff in Hin as ([o er] & Eo & Hin). cbn [fst] in Eo. subst o.
  assert (N : exists n p, In p (InlineFilingModel.fact_places (roots docs)) /\ InlineFilingSpec.is_node (lb_tostring lib) (InlineFilingModel.cont_places (roots docs)) p n /\
    InlineSpec.inline_fact rep (lb_float lib) (lb_era lib) (contexts docs) (somes (map fst us)) entity_exact (period_exact (lb_date lib)) (explicit_exact rep) (typed_exact rep) n iy er).
  { revert F1 F3 Hin. generalize (InlineFilingModel.fact_places (roots docs)). clear. intros ps F1. revert os. induction F1 as [|p n ps ns Hp _ IH]; intros os F3 Hin; inversion F3 as [|? o ? os' Ho F3']; subst; [destruct Hin|].
    destruct Hin as [->|Hin]; [exists n, p; split; [left; reflexivity|]; split; [exact Hp|exact Ho]|].
    destruct (IH os' F3' Hin) as (n' & p' & I & J). exists n', p'. split; [right; exact I|exact J]. }
  destruct N as (n & p & Hp & (En & _) & Hf).
  destruct (proj1 (InlineFilingProofs.ix_places_written _ _ (InlineFilingModel.p_tree p) (InlineFilingModel.p_above p)) (ex_intro _ p (conj Hp (conj eq_refl eq_refl)))) as (name & Hname & (t & uri & Ht & He)).
  unfold InlineFilingModel.instance_roots in Ht. apply filter_In in Ht as [Ht _]. apply in_map_iff in Ht as ([k t'] & Et & Ht). cbn [snd] in Et. subst t'.
  apply (proj2 A) in Ht as (v & Hv & _).
  exists docs, v, t, name, (InlineFilingModel.p_tree p), (InlineFilingModel.p_above p), n, (somes (map fst us)), iy, er.
  split; [exact A|]. split; [exact Hv|]. split; [exact Hname|]. split; [exists t, uri; split; [left; reflexivity|exact He]|]. split; [exact En|]. split; [exact Ey|exact Hf].
Qed.
(** And every inline fact element of the documents gives a fact, which is listed (another one, if the id is used
    twice), or is reported. *)
Theorem C111_inline_written_partial v t name x above : document_of_path w r paths v t -> InlineModel.is_instance (plain t) = true ->
  In name ["nonNumeric"; "nonFraction"]%string -> InlineFilingSpec.ix_element [t] name x above ->
  exists docs n units reports, all_documents w r paths docs /\ InlineModel.n_el n = plain x /\ incl reports (fl_errors filing) /\
    (InlineSpec.dropped rep (contexts docs) n reports \/
     exists iy, InlineSpec.inline_fact rep (lb_float lib) (lb_era lib) (contexts docs) units entity_exact (period_exact (lb_date lib)) (explicit_exact rep) (typed_exact rep) n iy reports /\
       match InlineModel.if_id iy with
       | None => In (InlineModel.if_fact iy) (fr_without_id (fl_facts filing))
       | Some i => exists y, In y (get_all_facts filing) /\ f_id y = Some i
       end).
Proof.
  intros Hv Hi Hname (t' & uri & [<-|[]] & He). destruct opened_inline as (docs & A & R). destruct (Hsame docs A) as (S1 & S2 & S3 & S4 & S5).
  destruct (InlineFilingProps.C99_exact_partial _ _ _ _ _ _ _ _ _ _ R (Hix docs A) (Husual docs A) Hlists S1 S2 S3 S4 S5 Hword) as (nodes & us & os & before & after & Ee & F1 & _ & F3 & F4).
  destruct (InlineFilingProps.C99_listed _ _ _ _ _ _ _ _ _ _ R) as (L1 & L2).
  assert (Ht : In t (roots docs)).
  { unfold InlineFilingModel.instance_roots. apply filter_In. split; [|exact Hi]. apply in_map_iff. exists (normalize_uri v, t). split; [reflexivity|]. apply (proj2 A). exists v. auto. }
  destruct (proj2 (InlineFilingProofs.ix_places_written _ (roots docs) x above) (ex_intro _ name (conj Hname (ex_intro _ t (ex_intro _ uri (conj Ht He)))))) as (p & Hp & <- & <-).
  assert (N : exists n o, In o os /\ InlineFilingSpec.is_node (lb_tostring lib) (InlineFilingModel.cont_places (roots docs)) p n /\
    InlineSpec.inline_outcome rep (lb_float lib) (lb_era lib) (contexts docs) (somes (map fst us)) entity_exact (period_exact (lb_date lib)) (explicit_exact rep) (typed_exact rep) n o).
  { revert F1 F3 Hp. fold (InlineFilingModel.fact_places (roots docs)). generalize (InlineFilingModel.fact_places (roots docs)). clear. intros ps F1. revert os.
    induction F1 as [|q n ps ns Hq _ IH]; intros os F3 Hp; inversion F3 as [|? o ? os' Ho F3']; subst; [destruct Hp|].
    destruct Hp as [->|Hp]; [exists n, o; split; [left; reflexivity|]; split; [exact Hq|exact Ho]|].
    destruct (IH os' F3' Hp) as (n' & o' & I & J). exists n', o'. split; [right; exact I|exact J]. }
  destruct N as (n & [o reports] & Ho & (En & _) & Hn). exists docs, n, (somes (map fst us)), reports. split; [exact A|]. split; [exact En|].
  split; [intros er Her; rewrite Ee; apply in_or_app; right; apply in_or_app; left; apply in_concat; exists reports; split; [apply in_map_iff; exists (o, reports); auto|exact Her]|].
  destruct o as [iy|]; [right|left; exact Hn]. exists iy. split; [exact Hn|].
  assert (Hin : In iy (somes (map fst os))) by (apply somes_in, in_map_iff; exists (Some iy, reports); auto).
  destruct (InlineModel.if_id iy) as [i|] eqn:Eid.
  - destruct (proj1 (InlineFilingProps.stored_ids _ _ i F4) (ex_intro _ iy (conj Hin Eid))) as (iz & K). pose proof (proj1 (proj2 F4 i iz) K) as (b & d & _ & Hz & _).
    exists (InlineModel.if_fact iz). split; [rewrite L1; apply in_map_iff; exists (i, iz); split; [reflexivity|exact (dict_get_in _ str_eqb_spec _ _ _ K)]|exact Hz].
  - rewrite L2. apply in_map. rewrite (proj1 F4). apply filter_In. split; [exact Hin|]. rewrite Eid. reflexivity.
Qed.
End Facts.
End Inline.
End Opened.

(** ** An example *)

(** The filing of [C110_example]: the schema is found through the instance. *)
Definition k_uris : list str := [u "f/i.xml"; u "f/a.xsd"].
Definition k_list : list (str * InlineFilingModel.tree) :=
  [(u "f/i.xml", CacheProps.tree_of x_instance_doc); (u "f/a.xsd", CacheProps.tree_of x_schema)].
Definition k_plain : list (str * xml) := [(u "f/i.xml", x_instance_doc); (u "f/a.xsd", x_schema)].

Lemma k_refers v x : In v k_uris -> refers CacheProps.k_world [] v x -> In x k_uris.
Proof.
  intros Hv H.
  assert (G : forall text rs, document CacheProps.k_world v = Some text -> tameb [] false text = true ->
    extract_references text = Ok rs -> In x (map (fun ref => resolve CacheProps.k_world [] ref v) rs))
    by (intros; eapply DtsProps.refers_compute; eauto).
  destruct Hv as [<-|[<-|[]]].
  - specialize (G CacheProps.k_instance [u "a.xsd"]). cbn [In]. destruct G as [<-|[]]; try (vm_compute; reflexivity). vm_compute. tauto.
  - specialize (G CacheProps.k_schema []). destruct G; vm_compute; reflexivity.
Qed.
Lemma k_separate : separate CacheProps.k_world [] k_uris.
Proof.
  split.
  - apply k_refers.
  - intros v x Hv Hx. destruct Hv as [<-|[<-|[]]]; destruct Hx as [<-|[<-|[]]]; intros E; vm_compute in E; first [discriminate E|reflexivity].
  - intros v x Hv Hx. destruct Hv as [<-|[<-|[]]]; destruct Hx as [<-|[<-|[]]]; intros E; vm_compute in E; first [discriminate E|reflexivity].
  - intros v Hv _. reflexivity.
  - intros v x Hv _ E. destruct Hv as [<-|[<-|[]]]; vm_compute in E; discriminate E.
  - intros v text Hv Hd. apply tameb_sound. destruct Hv as [<-|[<-|[]]]; vm_compute in Hd; injection Hd as <-; vm_compute; reflexivity.
Qed.
Lemma k_documents docs : all_documents CacheProps.k_world [] [u "f/i.xml"] docs -> Permutation k_list docs.
Proof.
  assert (L : exists s, load_all CacheProps.k_world [] 20 [u "f/i.xml"] empty_cache = Ok s /\ DtsModel.trees s = k_list) by (eexists; split; vm_compute; reflexivity).
  destruct L as (s & E & Es). intros (N & D).
  destruct (in_documents CacheProps.k_world [] k_uris 20 [u "f/i.xml"] s (fun l => Permutation_refl l) k_separate) as (N' & D').
  - intros x [<-|[]]. left. vm_compute. reflexivity.
  - vm_compute. repeat constructor.
  - exact E.
  - rewrite Es in N', D'. apply NoDup_Permutation; [exact (NoDup_map_inv _ _ N')|exact (NoDup_map_inv _ _ N)|]. intros [k t]. rewrite D', D. reflexivity.
Qed.
Lemma k_plain_of docs : all_documents CacheProps.k_world [] [u "f/i.xml"] docs -> Permutation k_plain (map (fun p => (fst p, InlineFilingModel.plain (snd p))) docs).
Proof.
  intros H. apply k_documents in H. assert (E : k_plain = map (fun p => (fst p, InlineFilingModel.plain (snd p))) k_list) by (vm_compute; reflexivity).
  rewrite E. apply Permutation_map, H.
Qed.
Lemma k_once : OrderSpec.names_once k_plain /\ fact_ids_distinct (dict_values k_plain).
Proof.
  destruct OrderProps.x_once as (_ & A & _ & B).
  assert (E1 : ConceptSpec.all_decls k_plain = ConceptSpec.all_decls x_trees) by (vm_compute; reflexivity).
  assert (E2 : all_fact_elements (dict_values k_plain) = all_fact_elements (dict_values x_trees)) by (vm_compute; reflexivity).
  unfold OrderSpec.names_once, fact_ids_distinct. rewrite E1, E2. split; [exact A|exact B].
Qed.
Lemma k_occurs d : In d (dict_values k_plain) -> In d (dict_values x_trees).
Proof. intros [<-|[<-|[]]]; [right; left; reflexivity|left; reflexivity]. Qed.

Example C111_example_hypotheses : LinkSpec.orders (so_edges CacheProps.k_orders) (so_roots CacheProps.k_orders) /\ some_order (so_shuffle CacheProps.k_orders) /\
  some_order (w_order CacheProps.k_world) /\ load_path CacheProps.k_fs 20 (u "f/i.xml") = Ok [u "f/i.xml"] /\ parse_catalog (fun _ => None) [u "f/i.xml"] = Ok ([u "f/i.xml"], [], []) /\
  separate CacheProps.k_world [] k_uris /\ (forall x, In x [u "f/i.xml"] -> In (resolve CacheProps.k_world [] x (u ".")) k_uris) /\ length k_uris < 20 /\
  no_period_word (lb_date CacheProps.k_library) /\
  exists f kept, CacheProps.k_open CacheProps.k_world [] = Ok (OpenedXml f, kept) /\
    forall docs, all_documents CacheProps.k_world [] [u "f/i.xml"] docs -> let docs' := map (fun p => (fst p, InlineFilingModel.plain (snd p))) docs in
      OrderSpec.names_once docs' /\ fact_ids_distinct (dict_values docs') /\ ConceptLoad.prefixes_usual docs' /\
      OrderSpec.alike (repository_of (fl_elements f)) (dict_values docs') /\ OrderSpec.plainly_written (dict_values docs').
Proof.
  split; [split; intros n l; apply Permutation_refl|]. split; [intros l; apply Permutation_refl|]. split; [intros l; apply Permutation_refl|].
  split; [vm_compute; reflexivity|]. split; [vm_compute; reflexivity|]. split; [exact k_separate|]. split; [intros x [<-|[]]; left; vm_compute; reflexivity|].
  split; [vm_compute; repeat constructor|]. split; [exact (proj1 (proj2 (proj2 (proj2 (proj2 (proj2 (proj2 (proj2 OrderProps.C109_example_hypotheses))))))))|].
  destruct C89_example as (g & R & _).
  assert (K : exists f kept g', CacheProps.k_open CacheProps.k_world [] = Ok (OpenedXml f, kept) /\ OrderProps.y_read x_trees = Ok g' /\ repository_of (fl_elements f) = repository_of (fl_elements g')).
  { eexists _, _, _. split; [vm_compute; reflexivity|]. split; [vm_compute; reflexivity|]. vm_compute. reflexivity. }
  destruct K as (f & kept & g' & E & E' & Er). exists f, kept. split; [exact E|]. intros docs D docs'. assert (P := k_plain_of docs D). fold docs' in P.
  destruct k_once as (A & B). split; [exact (OrderProofs.names_once_to _ _ P A)|]. split; [exact (OrderProofs.fact_ids_to _ _ P B)|].
  destruct OrderProps.C109_example_hypotheses as (_ & _ & X & _ & _ & Y & Z & _).
  assert (In' : forall d, In d (dict_values docs') -> In d (dict_values x_trees)) by (intros d Hd; apply k_occurs, (OrderProofs.docs_in _ _ P), Hd).
  assert (Oc : forall x, occurs (dict_values docs') x -> occurs (dict_values x_trees) x) by (intros x (d & Hd & Hx); exists d; auto).
  split; [|split].
  - intros root tns x Hx. apply (X root tns x). apply (OrderProofs.decls_in _ _ P) in Hx.
    assert (E1 : ConceptSpec.all_decls k_plain = ConceptSpec.all_decls x_trees) by (vm_compute; reflexivity). rewrite <- E1. exact Hx.
  - rewrite Er. assert (Rg : x_reads g') by (apply OrderProps.y_read_reads, E').
    destruct (Y g' Rg) as (a & b & c & d & e).
    split; [intros x y i s s' Hx Hy; apply (a x y); auto|]. split; [intros i j id x y Hi Hj; apply b; auto|]. split; [intros x y t e1 e2 Hx Hy; apply (c x y); auto|].
    split; [intros x y dt mt d1 m1 d2 m2 Hx Hy; apply (d x y); auto|intros x y dt v d1 d2 Hx Hy; apply (e x y); auto].
  - destruct Z as (Z1 & Z2). split; [intros x t Hx; apply Z1; auto|intros x Hx; apply Z2; auto].
Qed.

(** An inline filing: a page and its schema. *)
Definition n_page : InlineFilingModel.tree := InlineSameProps.y_page [InlineSameProps.y_related] InlineSameProps.y_kids.
Definition n_schema : InlineFilingModel.tree := InlineSameProps.bare x_schema.
Definition n_text : str := u "<html xlink:href='a.xsd'/>".
Definition n_disk : list (str * str) := [(u "f/i.xhtml", n_text); (u "f/a.xsd", CacheProps.k_schema)].
Definition n_world : world InlineFilingModel.tree :=
  World (fun _ ref => ref) (fun p => p) (fun _ => None) (dict_get str_eqb n_disk) (fun _ text => dict_get str_eqb [(n_text, n_page); (CacheProps.k_schema, n_schema)] text) (fun l => l).
Definition n_uris : list str := [u "f/i.xhtml"; u "f/a.xsd"].
Definition n_list : list (str * InlineFilingModel.tree) := [(u "f/i.xhtml", n_page); (u "f/a.xsd", n_schema)].
Definition n_fs : fsys := Fsys (fun p => str_eqb p (u "f/i.xhtml")) (fun _ => false) (fun _ => []) (fun _ => None).
Definition n_library : library := Library FootProps.env0 InlineSameProps.y_tostring CtxProps.iso_date (fun _ => Some false) (fun _ => Ok true) (fun _ => []) (fun _ => 1%Q).

Lemma n_refers v x : In v n_uris -> refers n_world [] v x -> In x n_uris.
Proof.
  intros Hv H.
  assert (G : forall text rs, document n_world v = Some text -> DtsProps.tameb [] false text = true ->
    extract_references text = Ok rs -> In x (map (fun ref => resolve n_world [] ref v) rs))
    by (intros; eapply DtsProps.refers_compute; eauto).
  destruct Hv as [<-|[<-|[]]].
  - specialize (G n_text [u "a.xsd"]). cbn [In]. destruct G as [<-|[]]; try (vm_compute; reflexivity). vm_compute. tauto.
  - specialize (G CacheProps.k_schema []). destruct G; vm_compute; reflexivity.
Qed.
Lemma n_separate : separate n_world [] n_uris.
Proof.
  split.
  - apply n_refers.
  - intros v x Hv Hx. destruct Hv as [<-|[<-|[]]]; destruct Hx as [<-|[<-|[]]]; intros E; vm_compute in E; first [discriminate E|reflexivity].
  - intros v x Hv Hx. destruct Hv as [<-|[<-|[]]]; destruct Hx as [<-|[<-|[]]]; intros E; vm_compute in E; first [discriminate E|reflexivity].
  - intros v Hv _. reflexivity.
  - intros v x Hv _ E. destruct Hv as [<-|[<-|[]]]; vm_compute in E; discriminate E.
  - intros v text Hv Hd. apply DtsProps.tameb_sound. destruct Hv as [<-|[<-|[]]]; vm_compute in Hd; injection Hd as <-; vm_compute; reflexivity.
Qed.
Lemma n_documents docs : all_documents n_world [] [u "f/i.xhtml"] docs -> docs = n_list \/ docs = rev n_list.
Proof.
  assert (L : exists s, load_all n_world [] 20 [u "f/i.xhtml"] empty_cache = Ok s /\ DtsModel.trees s = n_list) by (eexists; split; vm_compute; reflexivity).
  destruct L as (s & E & Es). intros (N & D).
  destruct (in_documents n_world [] n_uris 20 [u "f/i.xhtml"] s (fun l => Permutation_refl l) n_separate) as (N' & D').
  - intros x [<-|[]]. left. vm_compute. reflexivity.
  - vm_compute. repeat constructor.
  - exact E.
  - rewrite Es in N', D'. assert (P : Permutation docs n_list).
    { apply NoDup_Permutation; [exact (NoDup_map_inv _ _ N)|exact (NoDup_map_inv _ _ N')|]. intros [k t]. rewrite D', D. reflexivity. }
    unfold n_list in P. apply Permutation_sym, Permutation_length_2_inv in P. destruct P as [->| ->]; [left|right]; reflexivity.
Qed.

Example C111_inline_example_hypotheses : LinkSpec.orders (so_edges CacheProps.k_orders) (so_roots CacheProps.k_orders) /\ some_order (so_shuffle CacheProps.k_orders) /\
  some_order (w_order n_world) /\ load_path n_fs 20 (u "f/i.xhtml") = Ok [u "f/i.xhtml"] /\ parse_catalog (fun _ => None) [u "f/i.xhtml"] = Ok ([u "f/i.xhtml"], [], []) /\
  separate n_world [] n_uris /\ (forall x, In x [u "f/i.xhtml"] -> In (resolve n_world [] x (u ".")) n_uris) /\ length n_uris < 20 /\
  FootSpec.lists_sets (FootModel.e_set (lb_env n_library)) /\ no_period_word (lb_date n_library) /\
  (exists f kept, open_filing n_library CacheProps.k_orders n_fs n_world (fun _ => None) 20 [] (u "f/i.xhtml") = Ok (OpenedInline f, kept) /\
     map f_value (get_all_facts (InlineFilingModel.il_filing f)) = [u "7"; u "hello"] /\ length (get_all_report_elements (InlineFilingModel.il_filing f)) = 2) /\
  forall docs, all_documents n_world [] [u "f/i.xhtml"] docs -> let roots := InlineFilingModel.instance_roots (dict_values docs) in
    let docs0 := [InlineSpec.holding (InlineFilingSpec.resource_parts "xbrli:context" roots)] in
    (forall p, In p (InlineFilingModel.fact_places roots) -> InlineFilingSpec.usual_prefix p) /\
    LinkSpec.all_usual (dict_values (map (fun p => (fst p, InlineFilingModel.plain (snd p))) docs)) /\
    ConceptLoad.prefixes_usual (map (fun p => (fst p, InlineFilingModel.plain (snd p))) docs) /\
    forall rep, one_scheme docs0 /\ one_explicit rep docs0 /\ one_typed rep docs0 /\ plain_dimensions docs0 /\ plain_periods docs0.
Proof.
  split; [split; intros n l; apply Permutation_refl|]. split; [intros l; apply Permutation_refl|]. split; [intros l; apply Permutation_refl|].
  split; [vm_compute; reflexivity|]. split; [vm_compute; reflexivity|]. split; [exact n_separate|]. split; [intros x [<-|[]]; left; vm_compute; reflexivity|].
  split; [vm_compute; repeat constructor|]. split; [exact FootProps.env0_sets|]. split; [exact CtxProps.sample_no_period_word|].
  split; [eexists _, _; split; [vm_compute; reflexivity|]; split; vm_compute; reflexivity|].
  intros docs D. apply n_documents in D. cbv zeta.
  assert (Er : InlineFilingModel.instance_roots (dict_values docs) = InlineSameProps.y_roots [InlineSameProps.y_related] InlineSameProps.y_kids) by (destruct D as [->| ->]; vm_compute; reflexivity).
  rewrite Er. split; [exact InlineSameProps.C99_example_prefix|].
  assert (Hin : forall d, In d (dict_values (map (fun p => (fst p, InlineFilingModel.plain (snd p))) docs)) -> In d (InlineSameProps.y_docs [InlineSameProps.y_related] InlineSameProps.y_kids)).
  { intros d Hd. destruct D as [->| ->]; cbn [n_list rev app map fst snd dict_values In] in Hd; destruct Hd as [<-|[<-|[]]]; first [right; left; reflexivity|left; reflexivity]. }
  split; [|split].
  - intros link outside ((d & Hd & K) & Rest). apply (InlineSameProps.C100_example_links link outside). split; [exists d; split; [exact (Hin d Hd)|exact K]|exact Rest].
  - destruct FilingProps.C93_example as (_ & H2 & _). unfold ConceptLoad.prefixes_usual in *.
    assert (Ed : ConceptSpec.all_decls (map (fun p => (fst p, InlineFilingModel.plain (snd p))) docs) = ConceptSpec.all_decls FilingProps.x_trees) by (destruct D as [->| ->]; vm_compute; reflexivity).
    rewrite Ed. exact H2.
  - intros rep. destruct (InlineSameProps.C99_example_exact rep) as (a & b & c & d & e & _). split; [exact a|]. split; [exact b|]. split; [exact c|]. split; [exact d|exact e].
Qed.

Print Assumptions C111_documents_partial.
Print Assumptions C111_missing_partial.
Print Assumptions C111_elements_partial.
Print Assumptions C111_declared_partial.
Print Assumptions C111_facts_partial.
Print Assumptions C111_written_partial.
Print Assumptions C111_inline_elements_partial.
Print Assumptions C111_inline_declared_partial.
Print Assumptions C111_inline_facts_partial.
Print Assumptions C111_inline_written_partial.
