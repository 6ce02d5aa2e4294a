(** Reading links and components after other errors does the same and keeps these errors. *)
From Coq Require Import QArith.
From Verif Require Import Base QNameModel ErrBase ErrTable ErrModel CtxModel LangModel NetModel LinkModel.
From Verif Require InlineModel CompModel.
From Verif Require Import InlineFrame.
Local Open Scope nat_scope.
Local Opaque u insert create.

(** [es0] before the errors of a result *)
Definition pre {A} (es0 : repo xml) (r : res (A * repo xml)) : res (A * repo xml) :=
  match r with Ok (a, es) => Ok (a, es0 ++ es) | Raise e => Raise e end.
Definition keeps {A} (f : repo xml -> res (A * repo xml)) : Prop := forall es0 es, f (es0 ++ es) = pre es0 (f es).

Lemma keep_resource element_str x above : keeps (parse_xml_resource element_str x above).
Proof.
  intros es0 es. unfold parse_xml_resource.
  destruct (required x (u "xlink:type")) as [t|]; [|reflexivity]. cbn [bind]. destruct (negb _); [reflexivity|].
  destruct (required x (u "xlink:label")) as [lab|]; [|reflexivity]. cbn [bind].
  destruct (required x (u "xlink:role")) as [role|]; [|reflexivity]. cbn [bind].
  destruct (x_tag x) as [tag|]; [|reflexivity].
  destruct (contains (u "label") tag); [destruct (elem_lang _); [reflexivity|rewrite insert_after; destruct (insert _ _ _ _); reflexivity]|].
  destruct (contains (u "footnote") tag); [destruct (elem_lang _); [reflexivity|rewrite insert_after; destruct (insert _ _ _ _); reflexivity]|].
  destruct (contains (u "reference") tag); [destruct (reference_content _); reflexivity|].
  rewrite insert_after; destruct (insert _ _ _ _); reflexivity.
Qed.
Lemma keep_object element_str find_id i x above : keeps (link_object element_str find_id i x above).
Proof.
  intros es0 es. unfold link_object. destruct (required x (u "xlink:type")) as [t|]; [|reflexivity]. cbn [bind].
  destruct (str_eqb t (u "locator")).
  - destruct (required x (u "xlink:href")) as [h|]; [|reflexivity]. cbn [bind]. destruct (find_id _); [reflexivity|].
    rewrite insert_after; destruct (insert _ _ _ _); reflexivity.
  - destruct (str_eqb t (u "resource")).
    + rewrite keep_resource. destruct (parse_xml_resource _ _ _ _) as [[[r|] es']|]; reflexivity.
    + rewrite insert_after; destruct (insert _ _ _ _); reflexivity.
Qed.
Lemma keep_entries element_str find_id l : forall i, keeps (link_entries element_str find_id i l).
Proof.
  induction l as [|[x above] l IH]; intros i es0 es; cbn [link_entries]; [reflexivity|].
  destruct (required x (u "xlink:label")) as [lab|]; [|reflexivity]. cbn [bind]. rewrite keep_object.
  destruct (link_object _ _ _ _ _ _) as [[o es']|]; [|reflexivity]. cbn [bind pre fst snd]. rewrite IH.
  destruct (link_entries _ _ _ _ _) as [[r es2]|]; reflexivity.
Qed.
Lemma keep_arcs number l : forall seen, keeps (link_arcs number seen l).
Proof.
  induction l as [|[x above] l IH]; intros seen es0 es; cbn [link_arcs]; [reflexivity|].
  destruct (arc_of number x) as [a|]; [|reflexivity]. cbn [bind]. destruct (existsb _ seen).
  - rewrite insert_after. destruct (insert es _ _ _) as [es'|]; [|reflexivity]. cbn [bind]. rewrite IH. destruct (link_arcs _ _ _ _) as [[r es2]|]; reflexivity.
  - cbn [bind]. rewrite IH. destruct (link_arcs _ _ _ _) as [[r es2]|]; reflexivity.
Qed.

Definition lpre (es0 : repo xml) (st : lstate) : lstate := LState (es0 ++ ls_errors st) (ls_heap st) (ls_added st) (ls_runs st).
Definition pre_st {A} (es0 : repo xml) (r : res (A * lstate)) : res (A * lstate) :=
  match r with Ok (a, st) => Ok (a, lpre es0 st) | Raise e => Raise e end.

Section Filing.
Variable element_str : xml -> str.
Variable number : str -> Q.
Variable find_id : str -> option found.
Variable edge_order : nat -> list edge -> list edge.
Variable root_order : nat -> list nat -> list nat.
Variable fuel : nat.
Variable shuffle : list nat -> list nat.

Lemma keep_factory k link above role es0 st :
  run_factory element_str number find_id edge_order root_order k link above role (lpre es0 st) =
  pre_st es0 (run_factory element_str number find_id edge_order root_order k link above role st).
Proof.
  unfold run_factory. cbn [lpre ls_errors ls_heap ls_added ls_runs]. rewrite keep_arcs.
  destruct (link_arcs _ _ _ _) as [[arcs es1]|]; [|reflexivity]. cbn [bind pre fst snd]. rewrite keep_entries.
  destruct (link_entries _ _ _ _ _) as [[en es2]|]; [|reflexivity]. cbn [bind pre fst snd].
  destruct (parse_link _ _ _ _ _) as [[[h roots] ?]|]; [|reflexivity]. cbn [bind].
  match goal with |- context [bind ?m _] => destruct m end; reflexivity.
Qed.
Lemma keep_factories ks link above role es0 : forall st,
  run_factories element_str number find_id edge_order root_order ks link above role (lpre es0 st) =
  pre_st es0 (run_factories element_str number find_id edge_order root_order ks link above role st).
Proof.
  induction ks as [|k ks IH]; intros st; cbn [run_factories]; [reflexivity|]. rewrite keep_factory.
  destruct (run_factory _ _ _ _ _ _ _ _ _ _) as [[a st1]|]; [|reflexivity]. cbn [bind pre_st fst snd]. rewrite IH.
  destruct (run_factories _ _ _ _ _ _ _ _ _ _) as [[b st2]|]; reflexivity.
Qed.
Lemma keep_links l es0 : forall d st,
  links_loop element_str number find_id edge_order root_order l d (lpre es0 st) =
  pre_st es0 (links_loop element_str number find_id edge_order root_order l d st).
Proof.
  induction l as [|p l IH]; intros d st; cbn [links_loop]; [reflexivity|].
  assert (E : one_link element_str number find_id edge_order root_order p d (lpre es0 st) =
              pre_st es0 (one_link element_str number find_id edge_order root_order p d st)).
  { unfold one_link, parse_xml_link. destruct (InlineModel.attr_prefixed _ _) as [[role|]|]; [| |reflexivity]; cbn [bind].
    - destruct (x_tag (fst p)) as [tag|]; [|reflexivity]. destruct (factories tag) as [|k ks].
      + cbn [lpre ls_errors]. rewrite insert_after. destruct (insert _ _ _ _); reflexivity.
      + rewrite keep_factories. destruct (run_factories _ _ _ _ _ _ _ _ _ _) as [[b st2]|]; reflexivity.
    - cbn [lpre ls_errors]. rewrite insert_after. destruct (insert _ _ _ _); reflexivity. }
  rewrite E. clear E. destruct (one_link element_str number find_id edge_order root_order p d st) as [[d1 st1]|]; [|reflexivity]. cbn [bind pre_st fst snd]. apply IH.
Qed.
Lemma keep_networks docs es0 es :
  parse_networks element_str number find_id edge_order root_order fuel shuffle docs (es0 ++ es) =
  pre_st es0 (parse_networks element_str number find_id edge_order root_order fuel shuffle docs es).
Proof.
  unfold parse_networks. change (LState (es0 ++ es) [] [] 0) with (lpre es0 (LState es [] [] 0)). rewrite keep_links.
  destruct (links_loop _ _ _ _ _ _ _ _) as [[d st]|]; [|reflexivity]. cbn [bind pre_st fst snd lpre ls_heap ls_errors ls_added ls_runs].
  destruct (combine_roles _ _ _ _) as [[ws h]|]; reflexivity.
Qed.
End Filing.

Lemma keep_role_types nets l es0 : forall cs es,
  CompModel.parse_role_types nets l (cs, es0 ++ es) = pre es0 (CompModel.parse_role_types nets l (cs, es)).
Proof.
  assert (R : forall c code x role es, CompModel.report_if c code x role (es0 ++ es) =
    match CompModel.report_if c code x role es with Ok es => Ok (es0 ++ es) | Raise e => Raise e end).
  { intros c code x role es. unfold CompModel.report_if. destruct c; [apply insert_after|reflexivity]. }
  assert (C : forall x es, CompModel.parse_component nets x (es0 ++ es) = pre es0 (CompModel.parse_component nets x es)).
  { intros x es. unfold CompModel.parse_component. destruct (get_str_attribute x (u "roleURI")) as [role|]; [|reflexivity]. cbn [bind].
    destruct (dict_get _ _ _); [|reflexivity]. cbv zeta.
    do 6 (rewrite R; match goal with |- context [bind (match ?m with _ => _ end) _] => destruct m; [|reflexivity] end; cbn [bind]). reflexivity. }
  induction l as [|x l IH]; intros cs es; cbn [CompModel.parse_role_types]; [reflexivity|]. cbn [fst snd]. rewrite C.
  destruct (CompModel.parse_component nets x es) as [[c es1]|]; [|reflexivity]. cbn [bind pre fst snd]. apply IH.
Qed.
Lemma keep_components nets roots es0 es :
  CompModel.parse_components nets roots (es0 ++ es) = pre es0 (CompModel.parse_components nets roots es).
Proof. apply keep_role_types. Qed.
