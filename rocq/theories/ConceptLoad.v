(** Reading all declarations of all schemas. *)
From Verif Require Import Base Regex PyNum QNameModel QNameSpec QNameProofs QNameProps ErrBase ErrTable
  ErrModel ErrProps CtxModel DtsModel DtsRefs DtsProofs ConceptModel ConceptSpec ConceptProofs.

Local Opaque u insert.

(** ** The typed domain *)

Lemma typed_ref_name x : usual_prefix x ->
  exists q, qname_from_str (u "xbrldt" ++ u ":" ++ u "typedDomainRef") (x_scope x) = Ok q /\
    attr x (clark_notation q) = typed_domain_ref x.
Proof.
  intros [Hn Hi].
  pose (q := QName (u "http://xbrl.org/2005/xbrldt") (u "xbrldt") (u "typedDomainRef")).
  exists q. split; [|reflexivity].
  apply (C32_prefix_roundtrip q).
  - split; [discriminate|]. split; [|split]; intros H; apply mem_char_In in H; vm_compute in H; discriminate H.
  - split; [discriminate|]. split; [|split]; intros H; apply mem_char_In in H; vm_compute in H; discriminate H.
  - split; assumption.
  - intros E. vm_compute in E. discriminate E.
Qed.

Lemma find_id_spec root i :
  match find_id root i with
  | Some y => first_with_id root i y
  | None => forall y, ~ first_with_id root i y
  end.
Proof.
  unfold find_id, first_with_id.
  assert (H : forall l : list xml,
    match find (fun k => opt_eqb str_eqb (attr k (u "id")) (Some i)) l with
    | Some y => exists before after, l = before ++ y :: after /\ attr y (u "id") = Some i /\
                  forall z, In z before -> attr z (u "id") <> Some i
    | None => forall z, In z l -> attr z (u "id") <> Some i
    end).
  { induction l as [|k l IH]; cbn [find]; [intros z []|].
    destruct (opt_eqb_spec (attr k (u "id")) (Some i)) as [E|E].
    - exists [], l. split; [reflexivity|]. split; [exact E|]. intros z [].
    - destruct (find _ l) as [y|].
      + destruct IH as (b & a & -> & E1 & E2). exists (k :: b), a. split; [reflexivity|]. split; [exact E1|].
        intros z [<-|Hz]; auto.
      + intros z [<-|Hz]; auto. }
  specialize (H (descendants root)). destruct (find _ _) as [y|]; [exact H|].
  intros y (b & a & E & E1 & _). apply (H y); [rewrite E; apply in_elt|exact E1].
Qed.

Lemma split_two (s a b : str) : split_char (ch "#") s = [a; b] <->
  s = a ++ ch "#" :: b /\ ~ In (ch "#") a /\ ~ In (ch "#") b.
Proof.
  split.
  - intros E. split; [|split].
    + rewrite <- (join_split (ch "#") s), E. reflexivity.
    + apply (split_no_sep (ch "#") s). rewrite E. left; reflexivity.
    + apply (split_no_sep (ch "#") s). rewrite E. right; left; reflexivity.
  - intros (-> & Ha & Hb). rewrite split_prefix by exact Ha. rewrite split_none by exact Hb. reflexivity.
Qed.

(** The document of a reference, as looked up. *)
Definition lookup_doc (trees : list (str * xml)) (root : xml) (name : str) : res xml :=
  if negb (str_eqb name []) && negb (str_eqb name (u ".")) then
    match dict_get str_eqb trees (normalize_uri name) with Some t => Ok t | None => Raise KeyError end
  else Ok root.

Lemma lookup_doc_spec trees root name t : NoDup (map fst trees) ->
  lookup_doc trees root name = Ok t <-> document_named trees root name t.
Proof.
  intros Hn. unfold lookup_doc, document_named.
  destruct (str_eqb_spec name []) as [->|E]; cbn [negb andb].
  { split; [intros [= <-]; auto|]. intros [[_ ->]|(H & _)]; [reflexivity|congruence]. }
  destruct (str_eqb_spec name (u ".")) as [->|E1]; cbn [negb andb].
  { split; [intros [= <-]; auto|]. intros [[_ ->]|(_ & H & _)]; [reflexivity|congruence]. }
  destruct (dict_get str_eqb trees (normalize_uri name)) as [t'|] eqn:Hg.
  - pose proof (dict_get_in _ str_eqb_spec _ _ _ Hg) as Hi. split.
    + intros [= <-]. right; auto.
    + intros [[[H|H] _]|(_ & _ & H)]; try congruence.
      pose proof (dict_get_in_nodup _ str_eqb_spec _ _ _ Hn H). congruence.
  - split; [discriminate|]. intros [[[H|H] _]|(_ & _ & H)]; try congruence.
    pose proof (dict_get_in_nodup _ str_eqb_spec _ _ _ Hn H). congruence.
Qed.

Lemma resolve_domain_cases trees root x e es e' es' :
  NoDup (map fst trees) -> usual_prefix x -> r_body e = BDimension None ->
  resolve_domain trees root x e es = Ok (e', es') ->
  exists ty, e' = RElement (r_name e) (r_id e) (BDimension ty) /\ domain_type trees root x ty /\
    ((~ dangling trees root x /\ es' = es) \/
     (dangling trees root x /\ exists er, es' = es ++ [er] /\ about x "100" er)).
Proof.
  intros Hn Hp Hb H. unfold resolve_domain in H.
  assert (He : e = RElement (r_name e) (r_id e) (BDimension None)) by (destruct e; cbn in *; congruence).
  destruct (typed_ref_name x Hp) as (q & Eq & Ea). rewrite Eq in H. cbn [bind] in H. rewrite Ea in H.
  destruct (typed_domain_ref x) as [ref|] eqn:Hr.
  2:{ injection H as <- <-. exists None. split; [exact He|]. split; [left; auto|]. left. split; [|reflexivity].
      intros (n & i & t & E & _). congruence. }
  destruct (split_char (ch "#") ref) as [|name [|i [|? ?]]] eqn:Hs; try discriminate H.
  apply split_two in Hs as (-> & Hname & Hi).
  fold (lookup_doc trees root name) in H.
  destruct (lookup_doc trees root name) as [t|] eqn:Ht; [|discriminate H]. cbn [bind] in H.
  apply lookup_doc_spec in Ht; [|exact Hn].
  assert (Hsame : forall name' i', Some (name ++ ch "#" :: i) = Some (name' ++ ch "#" :: i') ->
    ~ In (ch "#") name' -> name' = name /\ i' = i).
  { intros name' i' [= E] Hn'. apply last_sep in E as [-> ->]; auto. }
  pose proof (find_id_spec t i) as Hf. destruct (find_id t i) as [y|].
  - apply bind_ok in H as (ty & Hty & H). apply bind_ok in H as (q' & Hq & [= <- <-]).
    exists (Some q'). split; [reflexivity|]. split.
    + right; right. exists y, ty, q'. split; [exists name, i, t; auto|]. split; [|auto].
      unfold get_str_attribute in Hty. destruct (attr y (u "type")); congruence.
    + left. split; [|reflexivity]. intros (name' & i' & t' & E & H1 & H2 & Hd & Hno).
      rewrite Hr in E. apply Hsame in E as [-> ->]; [|exact H1].
      apply lookup_doc_spec in Hd; [|exact Hn]. apply lookup_doc_spec in Ht; [|exact Hn].
      assert (t' = t) by congruence. subst t'. exact (Hno y Hf).
  - assert (Hd : dangling trees root x) by (exists name, i, t; auto).
    destruct (reference_inserts es x i name) as (er & Her & Hins). rewrite Hins in H. cbn [bind] in H.
    injection H as <- <-. exists None. split; [exact He|]. split; [right; left; auto|].
    right. split; [exact Hd|]. exists er. auto.
Qed.

(** ** The repository *)

Definition stored (reg : list relement) : rrepo := fold_left rr_upsert reg empty_rrepo.

Lemma stored_snoc reg e : stored (reg ++ [e]) = rr_upsert (stored reg) e.
Proof. unfold stored. rewrite fold_left_app. reflexivity. Qed.

Lemma stored_names reg : NoDup (map r_name reg) ->
  rr_by_qname (stored reg) = map (fun e => (r_name e, e)) reg.
Proof.
  induction reg as [|e reg IH] using rev_ind; [reflexivity|]. intros Hn.
  rewrite map_app in Hn. cbn [map] in Hn.
  assert (Hn' := NoDup_remove_1 _ _ _ Hn). rewrite app_nil_r in Hn'.
  assert (Hi := NoDup_remove_2 _ _ _ Hn). rewrite app_nil_r in Hi.
  rewrite stored_snoc. cbn [rr_upsert rr_by_qname]. rewrite IH by exact Hn'.
  rewrite (dict_set_keys_new _ qname_eqb_spec).
  - rewrite map_app. reflexivity.
  - unfold dict_keys. rewrite map_map. exact Hi.
Qed.

Lemma stored_all reg : NoDup (map r_name reg) -> rr_get_all (stored reg) = reg.
Proof.
  intros H. unfold rr_get_all, dict_values. rewrite stored_names by exact H. rewrite map_map. apply map_id.
Qed.

Lemma stored_has reg q : NoDup (map r_name reg) -> rr_has_qname (stored reg) q = true <-> In q (map r_name reg).
Proof.
  intros H. unfold rr_has_qname, dict_mem.
  destruct (dict_get qname_eqb (rr_by_qname (stored reg)) q) as [e|] eqn:E.
  - apply (dict_get_in _ qname_eqb_spec) in E. rewrite stored_names in E by exact H.
    apply in_map_iff in E as (e' & [= <- <-] & He). split; [intros _|reflexivity]. apply in_map, He.
  - apply (dict_get_none _ qname_eqb_spec) in E. rewrite stored_names in E by exact H.
    unfold dict_keys in E. rewrite map_map in E. cbn [fst] in E. split; [discriminate|]. intros Hi; contradiction.
Qed.

Lemma stored_get reg q e : NoDup (map r_name reg) ->
  rr_get_by_qname (stored reg) q = Ok e <-> In e reg /\ r_name e = q.
Proof.
  intros H. unfold rr_get_by_qname. rewrite stored_names by exact H. split.
  - destruct (dict_get _ _ _) as [e'|] eqn:E; [|discriminate]. intros [= ->].
    apply (dict_get_in _ qname_eqb_spec) in E. apply in_map_iff in E as (e' & [= <- <-] & He). auto.
  - intros [He <-].
    rewrite (dict_get_in_nodup _ qname_eqb_spec _ (r_name e) e).
    + reflexivity.
    + unfold dict_keys. rewrite map_map. exact H.
    + apply in_map_iff. eauto.
Qed.

Lemma last_with_id_snoc reg e i z :
  last_with_id (reg ++ [e]) i z <->
  (r_id e = Some i /\ z = e) \/ (r_id e <> Some i /\ last_with_id reg i z).
Proof.
  unfold last_with_id. split.
  - intros (b & a & E & Hz & Ha).
    destruct a as [|a0 a] using rev_ind.
    + apply app_inj_tail in E as [-> ->]. left; auto.
    + clear IHa. rewrite app_comm_cons, app_assoc in E. apply app_inj_tail in E as [-> ->].
      right. split; [apply Ha, in_or_app; right; left; reflexivity|].
      exists b, a. split; [reflexivity|]. split; [exact Hz|]. intros y Hy. apply Ha, in_or_app; auto.
  - intros [[H ->]|[H (b & a & -> & Hz & Ha)]].
    + exists reg, []. split; [reflexivity|]. split; [exact H|]. intros ? [].
    + exists b, (a ++ [e]). split; [rewrite <- app_assoc; reflexivity|]. split; [exact Hz|].
      intros y Hy. apply in_app_or in Hy as [Hy|[<-|[]]]; auto.
Qed.

Lemma stored_by_id reg i e : rr_get_by_id (stored reg) i = Ok e <-> last_with_id reg i e.
Proof.
  induction reg as [|x reg IH] using rev_ind.
  - cbn. split; [discriminate|]. intros (b & a & E & _). destruct b; discriminate E.
  - rewrite last_with_id_snoc, stored_snoc. unfold rr_get_by_id in *. cbn [rr_upsert rr_by_id].
    destruct (r_id x) as [j|] eqn:Ej.
    + destruct (str_eqb_spec j i) as [->|Hj].
      * rewrite (dict_get_set_same _ str_eqb_spec). split.
        -- intros [= <-]. auto.
        -- intros [[_ ->]|[H _]]; congruence.
      * rewrite (dict_get_set_other _ str_eqb_spec) by exact Hj. rewrite IH. split.
        -- intros H. right. split; [congruence|exact H].
        -- intros [[H _]|[_ H]]; [congruence|exact H].
    + rewrite IH. split.
      * intros H. right. split; [discriminate|exact H].
      * intros [[H _]|[_ H]]; [discriminate|exact H].
Qed.

(** ** All declarations in one loop *)

Definition step (trees : list (str * xml)) (d : decl) : rrepo * repo xml -> res (rrepo * repo xml) :=
  let '(root, tns, x) := d in parse_declaration trees root tns x.

Lemma for_all_app {A S} (f : A -> S -> res S) l m s :
  for_all f (l ++ m) s = (do! s <- for_all f l s; for_all f m s).
Proof.
  revert s; induction l as [|x l IH]; intros s; cbn [for_all app]; [reflexivity|].
  destruct (f x s); cbn [bind]; [apply IH|reflexivity].
Qed.

Lemma for_all_map {A B S} (g : A -> B) (f : B -> S -> res S) l s :
  for_all f (map g l) s = for_all (fun a => f (g a)) l s.
Proof.
  revert s; induction l as [|x l IH]; intros s; cbn [for_all map]; [reflexivity|].
  destruct (f (g x) s); cbn [bind]; [apply IH|reflexivity].
Qed.

Lemma declarations_filter root : declarations root =
  filter (fun k => match x_tag k, attr k (u "name") with
                   | Some t, Some _ => str_eqb t (u "{http://www.w3.org/2001/XMLSchema}element")
                   | _, _ => false
                   end) (descendants root).
Proof.
  unfold declarations. apply filter_ext. intros k. unfold has_tag.
  destruct (x_tag k) as [t|]; cbn [opt_eqb]; [|reflexivity].
  destruct (attr k (u "name")); [rewrite andb_true_r|rewrite andb_false_r; reflexivity].
  f_equal.
Qed.

Lemma parse_all_flat trees st : parse_report_elements trees st = for_all (step trees) (all_decls trees) st.
Proof.
  unfold parse_report_elements, all_decls, dict_values. rewrite for_all_map.
  assert (H : forall l st, for_all (fun t st0 =>
      match attr (snd t) (u "targetNamespace") with
      | None => Ok st0
      | Some tns => for_all (parse_declaration trees (snd t) tns) (declarations (snd t)) st0
      end) (l : list (str * xml)) st = for_all (step trees) (flat_map (fun t => decls_of (snd t)) l) st).
  { induction l as [|t l IH]; intros s; [reflexivity|]. cbn [flat_map]. rewrite for_all_app. cbn [for_all].
    assert (E : match attr (snd t) (u "targetNamespace") with
                | None => Ok s
                | Some tns => for_all (parse_declaration trees (snd t) tns) (declarations (snd t)) s
                end = for_all (step trees) (decls_of (snd t)) s).
    { unfold decls_of. destruct (attr (snd t) (u "targetNamespace")) as [tns|]; [|reflexivity].
      rewrite for_all_map. rewrite <- declarations_filter. reflexivity. }
    rewrite E. destruct (for_all (step trees) (decls_of (snd t)) s); cbn [bind]; [apply IH|reflexivity]. }
  apply H.
Qed.

(** ** What a declaration makes is determined *)

Lemma valid_concept_one x c c' : valid_concept x c -> valid_concept x c' -> c = c'.
Proof.
  intros (H1 & _ & H2 & _ & H3 & H4) (K1 & _ & K2 & _ & K3 & K4).
  destruct c as [p b n t], c' as [p' b' n' t']. cbn [c_period c_balance c_nillable c_type] in *.
  assert (p = p') by congruence. assert (b = b') by congruence. assert (t = t') by congruence. subst.
  destruct n, n'; try reflexivity; exfalso.
  - destruct K3 as [K3|K3]; rewrite H3 in K3; [discriminate K3|].
    assert (E : u "true" = u "false") by congruence. vm_compute in E. discriminate E.
  - destruct H3 as [H3|H3]; rewrite K3 in H3; [discriminate H3|].
    assert (E : u "true" = u "false") by congruence. vm_compute in E. discriminate E.
Qed.

Lemma named_one d q q' : named d q -> named d q' -> q = q'.
Proof. destruct d as [[root tns] x]. intros (n & E & H) (n' & E' & H'). congruence. Qed.

Lemma ref_parts (name id name' id' : str) : Some (name ++ ch "#" :: id) = Some (name' ++ ch "#" :: id') ->
  ~ In (ch "#") name -> ~ In (ch "#") name' -> name = name' /\ id = id'.
Proof. intros [= E] H1 H2. apply last_sep in E; auto. Qed.

Lemma document_named_one trees root name t t' : NoDup (map fst trees) ->
  document_named trees root name t -> document_named trees root name t' -> t = t'.
Proof. intros Hn H H'. apply lookup_doc_spec in H, H'; auto. congruence. Qed.

Lemma first_with_id_one root i y y' : first_with_id root i y -> first_with_id root i y' -> y = y'.
Proof.
  intros (b & a & E & Hy & Hb) (b' & a' & E' & Hy' & Hb').
  assert (H : find_id root i = Some y).
  { pose proof (find_id_spec root i) as F. unfold find_id in *. rewrite E.
    clear - Hy Hb. induction b as [|z b IH]; cbn [app find].
    - destruct (opt_eqb_spec (attr y (u "id")) (Some i)); [reflexivity|congruence].
    - destruct (opt_eqb_spec (attr z (u "id")) (Some i)) as [E|_]; [exfalso; exact (Hb z (or_introl eq_refl) E)|].
      apply IH. intros w Hw. apply Hb. right; exact Hw. }
  assert (H' : find_id root i = Some y').
  { unfold find_id in *. rewrite E'.
    clear - Hy' Hb'. induction b' as [|z b IH]; cbn [app find].
    - destruct (opt_eqb_spec (attr y' (u "id")) (Some i)); [reflexivity|congruence].
    - destruct (opt_eqb_spec (attr z (u "id")) (Some i)) as [E|_]; [exfalso; exact (Hb' z (or_introl eq_refl) E)|].
      apply IH. intros w Hw. apply Hb'. right; exact Hw. }
  congruence.
Qed.

Lemma ref_to_one trees root x y y' : NoDup (map fst trees) -> ref_to trees root x y -> ref_to trees root x y' -> y = y'.
Proof.
  intros Hn (n & i & t & E & H1 & H2 & Hd & Hf) (n' & i' & t' & E' & H1' & H2' & Hd' & Hf').
  rewrite E in E'. apply ref_parts in E' as [<- <-]; auto.
  rewrite (document_named_one _ _ _ _ _ Hn Hd' Hd) in Hf'. exact (first_with_id_one _ _ _ _ Hf Hf').
Qed.

Lemma ref_to_dangling trees root x y : NoDup (map fst trees) -> ref_to trees root x y -> ~ dangling trees root x.
Proof.
  intros Hn (n & i & t & E & H1 & H2 & Hd & Hf) (n' & i' & t' & E' & H1' & H2' & Hd' & Hf').
  rewrite E in E'. apply ref_parts in E' as [<- <-]; auto.
  rewrite (document_named_one _ _ _ _ _ Hn Hd' Hd) in Hf'. exact (Hf' y Hf).
Qed.

Lemma domain_type_one trees root x ty ty' : NoDup (map fst trees) ->
  domain_type trees root x ty -> domain_type trees root x ty' -> ty = ty'.
Proof.
  intros Hn [[H ->]|[[H ->]|(y & t & q & H & Ht & Hq & ->)]]
            [[H' ->]|[[H' ->]|(y' & t' & q' & H' & Ht' & Hq' & ->)]]; try reflexivity.
  - destruct H' as (n & i & t & E & _). congruence.
  - exfalso. exact (ref_to_dangling _ _ _ _ Hn H' H).
  - destruct H as (n & i & t' & E & _). congruence.
  - exfalso. exact (ref_to_dangling _ _ _ _ Hn H H').
  - rewrite <- (ref_to_one _ _ _ _ _ Hn H H') in *. congruence.
Qed.

Lemma makes_one trees d e e' : NoDup (map fst trees) -> makes trees d e -> makes trees d e' -> e = e'.
Proof.
  intros Hn. destruct d as [[root tns] x], e as [q i b], e' as [q' i' b']. cbn [makes r_name r_id r_body].
  intros (H1 & H2 & H3) (K1 & K2 & K3).
  rewrite (named_one _ _ _ H1 K1). rewrite H2, K2. f_equal.
  destruct b as [c| | | |ty|], b' as [c'| | | |ty'|];
    try (destruct H3 as [H3 H4]); try (destruct K3 as [K3 K4]); try reflexivity;
    try (pose proof (declares_one _ _ _ H3 K3) as E; discriminate E).
  - f_equal. exact (valid_concept_one _ _ _ H4 K4).
  - f_equal. exact (domain_type_one _ _ _ _ _ Hn H4 K4).
Qed.

Lemma makes_not_nothing trees d e : makes trees d e -> ~ makes_nothing d.
Proof.
  destruct d as [[root tns] x]. intros (_ & _ & H) [Hn|[Hc Hn]].
  - destruct (r_body e); try (destruct H as [H H']); exact (Hn _ H).
  - destruct (r_body e); try (destruct H as [H H']); try (pose proof (declares_one _ _ _ H Hc) as E; discriminate E).
    exact (Hn _ H').
Qed.

Lemma makes_named trees d e : makes trees d e -> named d (r_name e).
Proof. destruct d as [[root tns] x]. intros (H & _); exact H. Qed.

Lemma makes_not_bad trees d e : makes trees d e -> ~ bad_concept d.
Proof.
  intros H Hb. apply (makes_not_nothing _ _ _ H). destruct d as [[root tns] x]. right. exact Hb.
Qed.

(** ** One declaration *)

Definition prefixes_usual (trees : list (str * xml)) : Prop :=
  forall root tns x, In (root, tns, x) (all_decls trees) -> declares x KDimension -> usual_prefix x.

Lemma step_cases trees d reg es r' es' :
  NoDup (map fst trees) -> prefixes_usual trees -> In d (all_decls trees) -> NoDup (map r_name reg) ->
  step trees d (stored reg, es) = Ok (r', es') ->
  (makes_nothing d /\ r' = stored reg /\
     ((~ bad_concept d /\ es' = es) \/
      (bad_concept d /\ exists er number, es' = es ++ [er] /\ about (snd d) number er /\
         In number ["200"; "201"; "202"; "203"]%string))) \/
  (~ makes_nothing d /\ (exists q, named d q /\ In q (map r_name reg)) /\ r' = stored reg /\ es' = es) \/
  (exists e, makes trees d e /\ ~ In (r_name e) (map r_name reg) /\ r' = stored (reg ++ [e]) /\
     ((~ (declares (snd d) KDimension /\ dangling trees (fst (fst d)) (snd d)) /\ es' = es) \/
      (declares (snd d) KDimension /\ dangling trees (fst (fst d)) (snd d) /\
       exists er, es' = es ++ [er] /\ about (snd d) "100" er))).
Proof.
  intros Hn Hp Hd Hr. destruct d as [[root tns] x]. cbn [step fst snd]. unfold parse_declaration, bad_concept. cbn [snd].
  intros H. apply bind_ok in H as (name & Hname & H). apply bind_ok in H as (q & Hq & H).
  assert (Hnm : named (root, tns, x) q).
  { exists name. split; [|exact Hq]. unfold get_str_attribute in Hname. destruct (attr x (u "name")); congruence. }
  apply bind_ok in H as ([o es1] & Hc & H).
  destruct (create_cases x q es) as [(k & Hk & Hdk & E)|[[Hdk [(c & Hv & E)|(er & code & E & Her & Hnv & Hcode)]]|[Hnk E]]];
    rewrite E in Hc; injection Hc as <- <-.
  - (* not a concept *)
    assert (Hnn : ~ makes_nothing (root, tns, x)).
    { intros [H0|[H0 _]]; [exact (H0 _ Hdk)|]. apply Hk. exact (declares_one _ _ _ Hdk H0). }
    destruct (rr_has_qname (stored reg) q) eqn:Hh.
    + injection H as <- <-. right; left. split; [exact Hnn|]. split; [|auto].
      exists q. split; [exact Hnm|]. apply stored_has; assumption.
    + assert (Hf : ~ In q (map r_name reg)).
      { intros Hi. apply stored_has in Hi; [|exact Hr]. congruence. }
      right; right. cbn [r_body] in H.
      destruct (match k with KDimension => true | _ => false end) eqn:Edim.
      * destruct k; try discriminate Edim. cbn [plain_body] in H.
        apply bind_ok in H as ([e2 es2] & Hres & [= <- <-]).
        eapply resolve_domain_cases in Hres; [|exact Hn|exact (Hp _ _ _ Hd Hdk)|reflexivity].
        destruct Hres as (ty & -> & Hty & Hcase).
        exists (RElement q (attr x (u "id")) (BDimension ty)). split; [|split; [|split]].
        -- split; [exact Hnm|]. split; [reflexivity|]. split; [exact Hdk|exact Hty].
        -- exact Hf.
        -- rewrite stored_snoc. reflexivity.
        -- destruct Hcase as [[Hnd ->]|[Hdg (er & -> & Her)]].
           ++ left. split; [|reflexivity]. intros [_ H0]; contradiction.
           ++ right. split; [exact Hdk|]. split; [exact Hdg|]. exists er; auto.
      * assert (Hr' : (rr_upsert (stored reg) (RElement q (attr x (u "id")) (plain_body k)), es) = (r', es')).
        { destruct k; try discriminate Edim; cbn [plain_body] in *; congruence. }
        injection Hr' as <- <-.
        exists (RElement q (attr x (u "id")) (plain_body k)). split; [|split; [|split]].
        -- split; [exact Hnm|]. split; [reflexivity|].
           destruct k; try discriminate Edim; cbn [r_body plain_body]; try exact Hdk. congruence.
        -- exact Hf.
        -- rewrite stored_snoc. reflexivity.
        -- left. split; [|reflexivity]. intros [H0 _].
           rewrite (declares_one _ _ _ Hdk H0) in Edim. discriminate Edim.
  - (* a valid concept *)
    assert (Hnn : ~ makes_nothing (root, tns, x)).
    { intros [H0|[_ H0]]; [exact (H0 _ Hdk)|exact (H0 _ Hv)]. }
    destruct (rr_has_qname (stored reg) q) eqn:Hh.
    + injection H as <- <-. right; left. split; [exact Hnn|]. split; [|auto].
      exists q. split; [exact Hnm|]. apply stored_has; assumption.
    + assert (Hf : ~ In q (map r_name reg)).
      { intros Hi. apply stored_has in Hi; [|exact Hr]. congruence. }
      right; right. cbn [r_body] in H. injection H as <- <-.
      exists (RElement q (attr x (u "id")) (BConcept c)). split; [|split; [|split]].
      * split; [exact Hnm|]. split; [reflexivity|]. split; [exact Hdk|exact Hv].
      * exact Hf.
      * rewrite stored_snoc. reflexivity.
      * left. split; [|reflexivity]. intros [H0 _]. pose proof (declares_one _ _ _ Hdk H0) as E0. discriminate E0.
  - (* a bad concept *)
    injection H as <- <-. left. split; [right; auto|]. split; [reflexivity|]. right. split; [auto|].
    exists er, code. split; [reflexivity|]. split; [exact Her|].
    destruct Hcode as [[_ ->]|[(_ & _ & ->)|[(_ & _ & _ & ->)|(_ & _ & _ & _ & ->)]]]; cbn; auto.
  - injection H as <- <-. left. split; [left; exact Hnk|]. split; [reflexivity|]. left. split; [|reflexivity].
    intros [H0 _]. exact (Hnk _ H0).
Qed.

(** Whether a declaration makes anything is decided by its attributes. *)
Lemma classic_makes_nothing d : makes_nothing d \/ ~ makes_nothing d.
Proof.
  destruct d as [[root tns] x].
  destruct (create_cases x (QName [] [] []) []) as [(k & Hk & Hd & _)|[[Hd [(c & Hv & _)|(er & code & _ & _ & Hv & _)]]|[Hn _]]].
  - right. intros [H|[H _]]; [exact (H _ Hd)|]. apply Hk. exact (declares_one _ _ _ Hd H).
  - right. intros [H|[_ H]]; [exact (H _ Hd)|exact (H _ Hv)].
  - left. right. auto.
  - left. left. exact Hn.
Qed.

(** ** All declarations *)

(** [e] is made from the first declaration in [done] of its name that makes anything. *)
Definition first_in (trees : list (str * xml)) (done : list decl) (e : relement) : Prop :=
  exists before d after, done = before ++ d :: after /\ makes trees d e /\
    forall d', In d' before -> named d' (r_name e) -> makes_nothing d'.

Lemma first_in_snoc_old trees done d e : first_in trees done e -> first_in trees (done ++ [d]) e.
Proof.
  intros (b & d0 & a & -> & H1 & H2). exists b, d0, (a ++ [d]). rewrite <- app_assoc. auto.
Qed.

Lemma first_in_snoc trees done d e : first_in trees (done ++ [d]) e ->
  first_in trees done e \/
  (makes trees d e /\ forall d', In d' done -> named d' (r_name e) -> makes_nothing d').
Proof.
  intros (b & d0 & a & E & H1 & H2). destruct a as [|a0 a] using rev_ind.
  - apply app_inj_tail in E as [-> ->]. right; auto.
  - clear IHa. rewrite app_comm_cons, app_assoc in E. apply app_inj_tail in E as [-> ->].
    left. exists b, d0, a. auto.
Qed.

(** The name of [d] is taken iff an earlier declaration of it made something. *)
Lemma not_taken trees done reg q :
  (forall e, In e reg <-> first_in trees done e) ->
  (forall d', In d' done -> named d' q -> makes_nothing d') -> ~ In q (map r_name reg).
Proof.
  intros Hreg Hno Hi. apply in_map_iff in Hi as (e & <- & He). apply Hreg in He as (b & d & a & -> & Hm & _).
  apply (makes_not_nothing _ _ _ Hm). apply Hno; [apply in_elt|]. exact (makes_named _ _ _ Hm).
Qed.

Lemma parse_all_spec trees : NoDup (map fst trees) -> prefixes_usual trees ->
  forall todo done reg es r' es',
  done ++ todo = all_decls trees -> NoDup (map r_name reg) ->
  (forall e, In e reg <-> first_in trees done e) ->
  (forall d', In d' done -> ~ makes_nothing d' -> exists q, named d' q /\ In q (map r_name reg)) ->
  for_all (step trees) todo (stored reg, es) = Ok (r', es') ->
  exists reg' new, r' = stored reg' /\ NoDup (map r_name reg') /\
    (forall e, In e reg' <-> first_in trees (all_decls trees) e) /\
    es' = es ++ new /\ error_list trees done todo new /\
    (forall d', In d' (all_decls trees) -> ~ makes_nothing d' -> exists q, named d' q /\ In q (map r_name reg')).
Proof.
  intros Hn Hp. induction todo as [|d todo IH]; intros done reg es r' es' Hall Hr Hreg Htaken H.
  { cbn [for_all] in H. injection H as <- <-. rewrite app_nil_r in Hall. subst done.
    exists reg, []. rewrite app_nil_r. split; [reflexivity|]. split; [exact Hr|]. split; [exact Hreg|]. split; [reflexivity|]. split; [constructor|exact Htaken]. }
  cbn [for_all] in H. apply bind_ok in H as ([r1 es1] & Hs & H).
  assert (Hd : In d (all_decls trees)) by (rewrite <- Hall; apply in_elt).
  assert (Hall' : (done ++ [d]) ++ todo = all_decls trees) by (rewrite <- app_assoc; exact Hall).
  (* the errors of the rest, given those of this declaration *)
  assert (Hfin : forall reg1 l, r1 = stored reg1 -> es1 = es ++ l -> errors_at trees done d l ->
    NoDup (map r_name reg1) ->
    (forall e, In e reg1 <-> first_in trees (done ++ [d]) e) ->
    (forall d', In d' (done ++ [d]) -> ~ makes_nothing d' -> exists q, named d' q /\ In q (map r_name reg1)) ->
    exists reg' new, r' = stored reg' /\ NoDup (map r_name reg') /\
      (forall e, In e reg' <-> first_in trees (all_decls trees) e) /\
      es' = es ++ new /\ error_list trees done (d :: todo) new /\
      (forall d', In d' (all_decls trees) -> ~ makes_nothing d' -> exists q, named d' q /\ In q (map r_name reg'))).
  { intros reg1 l -> -> He Hr1 Hreg1 Ht1.
    destruct (IH _ _ _ _ _ Hall' Hr1 Hreg1 Ht1 H) as (reg' & new & -> & H1 & H2 & -> & H4 & H5).
    exists reg', (l ++ new). split; [reflexivity|]. split; [exact H1|]. split; [exact H2|].
    split; [rewrite app_assoc; reflexivity|]. split; [constructor; assumption|exact H5]. }
  destruct (step_cases trees d reg es r1 es1 Hn Hp Hd Hr Hs)
    as [(Hno & -> & Herr)|[(Hsome & (q & Hq & Hin) & -> & ->)|(e & Hm & Hfresh & -> & Herr)]].
  - (* nothing made *)
    assert (Hnd : ~ bad_dimension trees done d).
    { destruct d as [[root tns] x]. intros (H1 & _). destruct Hno as [H0|[H0 _]]; [exact (H0 _ H1)|].
      pose proof (declares_one _ _ _ H0 H1) as E; discriminate E. }
    assert (Hreg1 : forall e, In e reg <-> first_in trees (done ++ [d]) e).
    { intros e. rewrite Hreg. split; [apply first_in_snoc_old|].
      intros H0. apply first_in_snoc in H0 as [H0|[H0 _]]; [exact H0|].
      exfalso. exact (makes_not_nothing _ _ _ H0 Hno). }
    assert (Ht1 : forall d', In d' (done ++ [d]) -> ~ makes_nothing d' -> exists q, named d' q /\ In q (map r_name reg)).
    { intros d' Hd' Hd'n. apply in_app_or in Hd' as [Hd'|[<-|[]]]; [auto|contradiction]. }
    destruct Herr as [[Hnb ->]|[Hb (er & number & -> & Hab & Hnum)]].
    + apply (Hfin reg []); auto; [rewrite app_nil_r; reflexivity|]. right; right; auto.
    + apply (Hfin reg [er]); auto. left. split; [exact Hb|]. exists er, number; auto.
  - (* the name is taken *)
    assert (Hmk : exists d0 e0, In d0 done /\ makes trees d0 e0 /\ r_name e0 = q).
    { apply in_map_iff in Hin as (e0 & He0 & Hi0). apply Hreg in Hi0 as (b & d0 & a & -> & Hm0 & _).
      exists d0, e0. split; [apply in_elt|auto]. }
    destruct Hmk as (d0 & e0 & Hd0 & Hm0 & Hq0).
    assert (Hblock : ~ forall d', In d' done -> named d' q -> makes_nothing d').
    { intros H0. apply (makes_not_nothing _ _ _ Hm0). apply H0; [exact Hd0|].
      rewrite <- Hq0. exact (makes_named _ _ _ Hm0). }
    apply (Hfin reg []); auto.
    + rewrite app_nil_r; reflexivity.
    + right; right. split; [|split; [|reflexivity]].
      * intros Hb. apply Hsome. destruct d as [[root tns] x]. right. exact Hb.
      * destruct d as [[root tns] x]. intros (_ & _ & H0). apply Hblock. intros d' Hd' Hq'. exact (H0 d' q Hd' Hq Hq').
    + intros e. rewrite Hreg. split; [apply first_in_snoc_old|].
      intros H0. apply first_in_snoc in H0 as [H0|[H0 H1]]; [exact H0|]. exfalso. apply Hblock.
      rewrite (named_one _ _ _ Hq (makes_named _ _ _ H0)). exact H1.
    + intros d' Hd' Hd'n. apply in_app_or in Hd' as [Hd'|[<-|[]]]; [auto|]. eauto.
  - (* a new element *)
    assert (Hfirst : forall d', In d' done -> named d' (r_name e) -> makes_nothing d').
    { intros d' Hd' Hq'. destruct d' as [[root' tns'] x'] eqn:Ed'.
      destruct (classic_makes_nothing (root', tns', x')) as [Hx|Hx]; [exact Hx|].
      exfalso. destruct (Htaken _ Hd' Hx) as (q' & Hq'' & Hi). apply Hfresh.
      rewrite (named_one _ _ _ Hq' Hq''). exact Hi. }
    assert (Hreg1 : forall e', In e' (reg ++ [e]) <-> first_in trees (done ++ [d]) e').
    { intros e'. rewrite in_app_iff, Hreg. split.
      - intros [H0|[<-|[]]]; [apply first_in_snoc_old, H0|]. exists done, d, []. auto.
      - intros H0. apply first_in_snoc in H0 as [H0|[H0 _]]; [left; exact H0|].
        right; left. exact (makes_one _ _ _ _ Hn Hm H0). }
    assert (Hr1 : NoDup (map r_name (reg ++ [e]))).
    { rewrite map_app. apply NoDup_snoc; assumption. }
    assert (Ht1 : forall d', In d' (done ++ [d]) -> ~ makes_nothing d' ->
              exists q, named d' q /\ In q (map r_name (reg ++ [e]))).
    { intros d' Hd' Hd'n. rewrite map_app. apply in_app_or in Hd' as [Hd'|[<-|[]]].
      - destruct (Htaken _ Hd' Hd'n) as (q & Hq & Hi). exists q. split; [exact Hq|apply in_or_app; auto].
      - exists (r_name e). split; [exact (makes_named _ _ _ Hm)|]. apply in_or_app; right; left; reflexivity. }
    assert (Hnb : ~ bad_concept d) by exact (makes_not_bad _ _ _ Hm).
    destruct Herr as [[Hnd ->]|[Hdim [Hdang (er & -> & Hab)]]].
    + apply (Hfin (reg ++ [e]) []); auto; [rewrite app_nil_r; reflexivity|].
      right; right. split; [exact Hnb|]. split; [|reflexivity].
      destruct d as [[root tns] x]. intros (H0 & H1 & _). apply Hnd. auto.
    + apply (Hfin (reg ++ [e]) [er]); auto. right; left. split; [|eauto].
      destruct d as [[root tns] x]. split; [exact Hdim|]. split; [exact Hdang|].
      intros d' q Hd' Hq Hq'. apply Hfirst; [exact Hd'|].
      rewrite <- (named_one _ _ _ Hq (makes_named _ _ _ Hm)). exact Hq'.
Qed.
