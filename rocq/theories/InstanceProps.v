(** C99: which documents of an inline filing are read for facts. *)
From Verif Require Import Base QNameModel QNameSpec QNameProps CtxModel SearchProps InlineModel InlineSpec InlineFilingModel.
From Verif Require OpenProofs InlineProps.
Local Open Scope nat_scope.

(** ** Specification *)

(** The name of the element ends so. *)
Definition named_like (x : xml) (s : string) : Prop := exists before, x_tag x = Some (before ++ u s).
Definition no_schema_or_linkbase (x : xml) : Prop := ~ named_like x "schema" /\ ~ named_like x "linkbase".

Lemma ends_not p s : negb (ends_with p s) = true <-> ~ exists a, s = a ++ p.
Proof.
  rewrite negb_true_iff, <- OpenProofs.ends_with_iff. destruct (ends_with p s); split; congruence.
Qed.
Lemma instance_iff x : is_instance x = true <-> no_schema_or_linkbase x.
Proof.
  unfold is_instance, no_schema_or_linkbase, named_like. destruct (x_tag x) as [t|].
  - rewrite andb_true_iff, !ends_not. split; intros [A B]; split; intros (a & E).
    + apply A. exists a. injection E as E. exact E.
    + apply B. exists a. injection E as E. exact E.
    + apply A. exists a. rewrite E. reflexivity.
    + apply B. exists a. rewrite E. reflexivity.
  - split; [|reflexivity]. intros _. split; intros (a & E); discriminate E.
Qed.

(** The pages that are read are the documents that are neither schemas nor linkbases, in their order. *)
Theorem C99_instances trees : (forall t, In t (instance_roots trees) <-> In t trees /\ no_schema_or_linkbase (plain t)) /\
  forall before a between b after, trees = before ++ a :: between ++ b :: after -> no_schema_or_linkbase (plain a) -> no_schema_or_linkbase (plain b) ->
    exists before' between' after', instance_roots trees = before' ++ a :: between' ++ b :: after'.
Proof.
  unfold instance_roots. split.
  - intros t. rewrite filter_In, instance_iff. tauto.
  - intros before a between b after -> Ha Hb. apply instance_iff in Ha, Hb. rewrite filter_app. cbn [filter]. rewrite Ha, filter_app. cbn [filter]. rewrite Hb. eauto.
Qed.
(** The same of the documents that InlineModel is given. *)
Theorem C64_instances docs d : In d (instances docs) <-> In d docs /\ no_schema_or_linkbase (d_root d).
Proof. unfold instances. rewrite filter_In, instance_iff. tauto. Qed.

(** ** Headers and what is in them *)

(** The element is written with this prefix and name. *)
Definition called (x : xml) (name : string) : Prop := tag_name x = Ok (u name).
Definition header_at (docs : list document) (h : xml) : Prop :=
  exists d p, In d docs /\ no_schema_or_linkbase (d_root d) /\ p <> [] /\ at_place (d_root d) p h /\ named h (u "http://www.xbrl.org/2013/inlineXBRL") (u "header").
(** It is in the resources of a header. *)
Definition in_resources (docs : list document) (name : string) (x : xml) : Prop :=
  exists h r, header_at docs h /\ In r (x_kids h) /\ called r "ix:resources" /\ In x (x_kids r) /\ called x name.

Lemma has_tag_iff t x : has_tag t x = true <-> x_tag x = Some t.
Proof.
  unfold has_tag. destruct (x_tag x) as [t'|]; cbn [opt_eqb]; [|split; discriminate].
  destruct (str_eqb_spec t' t) as [->|N]; split; congruence.
Qed.
Lemma header_tag y : has_tag (to_clark ix_2013 (u "header")) y = true <-> named y (u "http://www.xbrl.org/2013/inlineXBRL") (u "header").
Proof. rewrite has_tag_iff. unfold named, to_clark, ix_2013. apply iff_refl. Qed.
Lemma is_named_iff t x : is_named t x = true <-> tag_name x = Ok t.
Proof.
  unfold is_named. destruct (tag_name x) as [t'|e]; [|split; discriminate]. destruct (str_eqb_spec t' t) as [->|N]; split; congruence.
Qed.
(** The headers of a page are found wherever they are, in the order of the page. *)
Theorem C66_headers root l : headers_of root = l <-> found_in root (fun y => named y (u "http://www.xbrl.org/2013/inlineXBRL") (u "header")) l.
Proof.
  assert (F : found_in root (fun y => named y (u "http://www.xbrl.org/2013/inlineXBRL") (u "header")) (headers_of root)) by (apply found_filter, header_tag).
  split; [intros <-; exact F|]. intros G. exact (found_one _ _ _ _ F G).
Qed.
Lemma in_headers docs h : In h (doc_headers docs) <-> header_at docs h.
Proof.
  unfold doc_headers, all_headers. rewrite in_flat_map. split.
  - intros (x & Hx & Hh). apply in_map_iff in Hx as (d & <- & Hd). apply C64_instances in Hd as [Hd Hn].
    destruct (proj1 (C66_headers (d_root d) _) eq_refl) as (at_ & _ & E & H). rewrite <- E in Hh. apply in_map_iff in Hh as ((p & y) & <- & Hp).
    apply H in Hp as (A & B & C). exists d, p. auto.
  - intros (d & p & Hd & Hn & Hp & Ha & Hh). exists (d_root d). split; [apply in_map, C64_instances; auto|].
    destruct (proj1 (C66_headers (d_root d) _) eq_refl) as (at_ & _ & E & H). rewrite <- E. apply in_map_iff. exists (p, h). split; [reflexivity|]. apply H. auto.
Qed.
Lemma in_kids_named t l x : In x (kids_named t l) <-> exists h, In h l /\ In x (x_kids h) /\ called x t.
Proof.
  unfold kids_named, called. rewrite filter_In, in_flat_map, is_named_iff. split; [intros [(h & A & B) C]; eauto|intros (h & A & B & C); eauto].
Qed.
(** The contexts and units are the children so called of the resources of headers. *)
Theorem C66_resources docs x : (In x (doc_contexts docs) <-> in_resources docs "xbrli:context" x) /\ (In x (doc_units docs) <-> in_resources docs "xbrli:unit" x).
Proof.
  unfold doc_contexts, doc_units, doc_resources, in_resources. split; rewrite in_kids_named; split.
  - intros (r & Hr & A & B). apply in_kids_named in Hr as (h & Hh & C & D). apply in_headers in Hh. eauto 10.
  - intros (h & r & Hh & C & D & A & B). exists r. split; [|auto]. apply in_kids_named. exists h. split; [apply in_headers; exact Hh|auto].
  - intros (r & Hr & A & B). apply in_kids_named in Hr as (h & Hh & C & D). apply in_headers in Hh. eauto 10.
  - intros (h & r & Hh & C & D & A & B). exists r. split; [|auto]. apply in_kids_named. exists h. split; [apply in_headers; exact Hh|auto].
Qed.
(** What an element of a namespace that one prefix stands for is called. *)
Theorem C66_called x p uri local : x_tag x = Some (u "{" ++ uri ++ u "}" ++ local) -> uri <> [] -> without (ch "}") uri -> local <> [] -> without (ch "{") local ->
  uri <> xml_ns -> binds (x_scope x) (Some p) uri -> (forall k, In (k, uri) (x_scope x) -> k = Some p) -> tag_name x = Ok (p ++ u ":" ++ local).
Proof.
  intros Ht H1 H2 H3 H4 H5 H6 H7. destruct (C32_clark_roundtrip (QName uri p local) (x_scope x) H1 H2 H3 H4) as [_ G]. specialize (G H5 H6 H7).
  unfold clark_notation, to_clark in G. cbn [q_uri q_local] in G. unfold tag_name. rewrite Ht, G. reflexivity.
Qed.

(** A schema and a page. *)
Definition p_schema : tree := Tree (Some (u "{http://www.w3.org/2001/XMLSchema}schema")) [] [] None [] None.
Definition p_page : tree := Tree (Some (u "{http://www.w3.org/1999/xhtml}html")) [] [] None [] None.
Example C99_instances_case : instance_roots [p_schema; p_page] = [p_page] /\ no_schema_or_linkbase (plain p_page) /\ ~ no_schema_or_linkbase (plain p_schema).
Proof.
  split; [vm_compute; reflexivity|]. split; [apply instance_iff; vm_compute; reflexivity|].
  intros H. apply instance_iff in H. revert H. vm_compute. discriminate.
Qed.

(** The sample of C64 has a header with contexts. *)
Example C66_resources_case : exists x, in_resources [InlineProps.i_doc InlineProps.i_good []] "xbrli:context" x /\ called x "xbrli:context" /\ attr x (u "id") <> None.
Proof.
  assert (E : exists x, hd_error (doc_contexts [InlineProps.i_doc InlineProps.i_good []]) = Some x /\ tag_name x = Ok (u "xbrli:context") /\ attr x (u "id") <> None).
  { vm_compute. eexists. split; [reflexivity|]. split; [reflexivity|discriminate]. }
  destruct E as (x & E & T & I). exists x. split; [|auto]. apply C66_resources. destruct (doc_contexts _) as [|y l]; [discriminate E|]. injection E as ->. left. reflexivity.
Qed.

Print Assumptions C99_instances.
Print Assumptions C64_instances.
Print Assumptions C66_headers.
Print Assumptions C66_resources.
Print Assumptions C66_called.
