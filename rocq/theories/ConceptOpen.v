(** When the declarations of a filing can be read. *)
From Verif Require Import Base Regex QNameModel ErrBase ErrTable ErrModel ErrProps CtxModel DtsModel ConceptModel ConceptSpec ConceptProofs ConceptLoad.

(** Every declaration has a name, and the first of its name, if it is a dimension, a domain that can be
    told. *)
Definition declarable (trees : list (str * xml)) : Prop :=
  (forall d, In d (all_decls trees) -> exists q, named d q) /\
  (forall before root tns x after, all_decls trees = before ++ (root, tns, x) :: after -> declares x KDimension ->
     (forall d' q, In d' before -> named (root, tns, x) q -> named d' q -> makes_nothing d') ->
     exists ty, domain_type trees root x ty).

Lemma can_dangle es (x : xml) a b : exists e, insert es "REFERENCED_SCHEMA_ELEMENT_NOT_FOUND" (Some x) [(u "ref_id", a); (u "ref_schema_name", b)] = Ok e.
Proof. unfold insert. destruct (create _ _ _) as [e|e] eqn:E; [cbn; eauto|vm_compute in E; discriminate]. Qed.
Local Opaque insert create.

Lemma resolve_ok_iff trees root x e es : NoDup (map fst trees) -> usual_prefix x -> r_body e = BDimension None ->
  ((exists r, resolve_domain trees root x e es = Ok r) <-> exists ty, domain_type trees root x ty).
Proof.
  intros Hn Hu Hb. split.
  - intros [[e' es'] H]. eapply resolve_domain_cases in H; eauto. destruct H as (ty & _ & H & _). eauto.
  - destruct (typed_ref_name x Hu) as (q & Hq & Ha).
    assert (Hdoc : forall name t, document_named trees root name t ->
      (if negb (str_eqb name []) && negb (str_eqb name (u ".")) then match dict_get str_eqb trees (normalize_uri name) with Some t => Ok t | None => Raise KeyError end else Ok root) = Ok t).
    { intros name t Ht. apply (lookup_doc_spec trees root name t Hn) in Ht. exact Ht. }
    intros [ty [[H _]|[[(name & id & t & H & N1 & N2 & Ht & Hno) _]|(y & ty' & q' & (name & id & t & H & N1 & N2 & Ht & Hy) & Hty & Hq' & _)]]]; unfold resolve_domain; rewrite Hq; cbn [bind]; rewrite Ha, H.
    + eauto.
    + rewrite (proj2 (split_two _ name id) (conj eq_refl (conj N1 N2))), (Hdoc _ _ Ht). cbn [bind].
      pose proof (find_id_spec t id) as F. destruct (find_id t id) as [y|]; [destruct (Hno y F)|]. destruct (can_dangle es x id name) as [es' E]. rewrite E. cbn [bind]. eauto.
    + rewrite (proj2 (split_two _ name id) (conj eq_refl (conj N1 N2))), (Hdoc _ _ Ht). cbn [bind].
      pose proof (find_id_spec t id) as F. destruct (find_id t id) as [y'|]; [|destruct (F y Hy)]. rewrite (first_with_id_one _ _ _ _ F Hy). unfold get_str_attribute. rewrite Hty. cbn [bind]. rewrite Hq'. cbn [bind]. eauto.
Qed.

Lemma step_ok_iff trees root tns x reg es : NoDup (map fst trees) -> (declares x KDimension -> usual_prefix x) -> NoDup (map r_name reg) ->
  ((exists r, step trees (root, tns, x) (stored reg, es) = Ok r) <->
   (exists q, named (root, tns, x) q) /\
   (declares x KDimension -> (forall q, named (root, tns, x) q -> ~ In q (map r_name reg)) -> exists ty, domain_type trees root x ty)).
Proof.
  intros Hn Hp Hr. cbn [step]. unfold parse_declaration.
  assert (Hname : forall q, named (root, tns, x) q <-> exists name, get_str_attribute x (u "name") = Ok name /\ qname_from_str (to_clark tns name) (x_scope x) = Ok q).
  { intros q. unfold named, get_str_attribute. destruct (attr x (u "name")) as [n|]; split; intros (n' & A & B); try discriminate; exists n'; split; congruence. }
  assert (G : forall q name, get_str_attribute x (u "name") = Ok name -> qname_from_str (to_clark tns name) (x_scope x) = Ok q ->
    ((exists r, (do! made <- create_element x q es; let '(o, es0) := made in
       match o with
       | None => Ok (stored reg, es0)
       | Some e => if rr_has_qname (stored reg) q then Ok (stored reg, es0)
           else match r_body e with
                | BDimension _ => do! d <- resolve_domain trees root x e es0; let '(e0, es1) := d in Ok (rr_upsert (stored reg) e0, es1)
                | _ => Ok (rr_upsert (stored reg) e, es0)
                end
       end) = Ok r) <->
     (declares x KDimension -> (forall q, named (root, tns, x) q -> ~ In q (map r_name reg)) -> exists ty, domain_type trees root x ty))).
  { intros q name E1 E2. assert (Hq : named (root, tns, x) q) by (apply Hname; eauto).
    destruct (create_cases x q es) as [(k & Hk & Hdk & E)|[[Hdk [(c & Hv & E)|(er & code & E & Her & Hnv & Hcode)]]|[Hnk E]]]; rewrite E; cbn [bind].
    - destruct (rr_has_qname (stored reg) q) eqn:Hh.
      + apply stored_has in Hh; [|exact Hr]. split; [|eauto]. intros _ _ H. exfalso. exact (H q Hq Hh).
      + assert (Hf : ~ In q (map r_name reg)) by (intros Hi; apply stored_has in Hi; [congruence|exact Hr]).
        destruct (match k with KDimension => true | _ => false end) eqn:Edim.
        * destruct k; try discriminate Edim. cbn [plain_body r_body].
          rewrite <- (resolve_ok_iff trees root x (RElement q (attr x (u "id")) (BDimension None)) es Hn (Hp Hdk) eq_refl). split.
          -- intros [r H] _ _. apply bind_ok in H as (d & Hd & _). eauto.
          -- intros H. destruct (H Hdk) as [[e' es'] H']; [intros q' Hq'; rewrite (named_one _ _ _ Hq' Hq); exact Hf|]. rewrite H'. cbn [bind]. eauto.
        * split; [|destruct k; try discriminate Edim; cbn; eauto]. intros _ H. rewrite (declares_one _ _ _ Hdk H) in Edim. discriminate.
    - destruct (rr_has_qname (stored reg) q); cbn; (split; [intros _ H; pose proof (declares_one _ _ _ Hdk H); discriminate|eauto]).
    - split; [intros _ H; pose proof (declares_one _ _ _ Hdk H); discriminate|eauto].
    - split; [intros _ H; exfalso; exact (Hnk _ H)|eauto]. }
  split.
  - intros [r H]. apply bind_ok in H as (name & E1 & H). apply bind_ok in H as (q & E2 & H). split; [exists q; apply Hname; eauto|]. apply (G q name E1 E2). eauto.
  - intros [[q Hq] H]. apply Hname in Hq as (name & E1 & E2). destruct (proj2 (G q name E1 E2) H) as [r Hr']. exists r. rewrite E1. cbn [bind]. rewrite E2. exact Hr'.
Qed.

Lemma declarations_iff_aux trees : NoDup (map fst trees) -> prefixes_usual trees ->
  forall todo done reg es, done ++ todo = all_decls trees -> NoDup (map r_name reg) ->
  (forall q, In q (map r_name reg) <-> exists d', In d' done /\ named d' q /\ ~ makes_nothing d') ->
  ((exists r, for_all (step trees) todo (stored reg, es) = Ok r) <->
   (forall d, In d todo -> exists q, named d q) /\
   (forall before root tns x after, todo = before ++ (root, tns, x) :: after -> declares x KDimension ->
     (forall d' q, In d' (done ++ before) -> named (root, tns, x) q -> named d' q -> makes_nothing d') ->
     exists ty, domain_type trees root x ty)).
Proof.
  intros Hn Hp. induction todo as [|d todo IH]; intros done reg es Hall Hr Hreg; cbn [for_all].
  { split; [|eauto]. intros _. split; [intros d []|]. intros before root tns x after E. destruct before; discriminate. }
  assert (Hd : In d (all_decls trees)) by (rewrite <- Hall; apply in_elt).
  assert (Hall' : (done ++ [d]) ++ todo = all_decls trees) by (rewrite <- app_assoc; exact Hall).
  assert (Hnext : forall r1 es1, step trees d (stored reg, es) = Ok (r1, es1) -> exists reg1, r1 = stored reg1 /\ NoDup (map r_name reg1) /\
    forall q, In q (map r_name reg1) <-> exists d', In d' (done ++ [d]) /\ named d' q /\ ~ makes_nothing d').
  { intros r1 es1 Hs. destruct (step_cases trees d reg es r1 es1 Hn Hp Hd Hr Hs) as [(Hno & -> & _)|[(Hsome & (q & Hq & Hin) & -> & _)|(e & Hm & Hfresh & -> & _)]].
    - exists reg. split; [reflexivity|]. split; [exact Hr|]. intros q. rewrite Hreg. split; intros (d' & A & B & C); exists d'; [split; [apply in_or_app; auto|auto]|].
      apply in_app_or in A as [A|[<-|[]]]; [auto|contradiction].
    - exists reg. split; [reflexivity|]. split; [exact Hr|]. intros q'. split.
      + rewrite Hreg. intros (d' & A & B & C). exists d'. split; [apply in_or_app; auto|auto].
      + intros (d' & A & B & C). apply in_app_or in A as [A|[<-|[]]]; [apply Hreg; eauto|]. rewrite (named_one _ _ _ B Hq). exact Hin.
    - exists (reg ++ [e]). split; [reflexivity|]. rewrite map_app. split; [apply NoDup_snoc; assumption|]. intros q. rewrite in_app_iff, Hreg. cbn [In map]. split.
      + intros [(d' & A & B & C)|[<-|[]]]; [exists d'; split; [apply in_or_app; auto|auto]|]. exists d. split; [apply in_elt|]. split; [exact (makes_named _ _ _ Hm)|exact (makes_not_nothing _ _ _ Hm)].
      + intros (d' & A & B & C). apply in_app_or in A as [A|[<-|[]]]; [left; eauto|]. right. left. symmetry. exact (named_one _ _ _ B (makes_named _ _ _ Hm)). }
  destruct d as [[root tns] x].
  assert (Hstep := step_ok_iff trees root tns x reg es Hn (Hp root tns x Hd) Hr).
  assert (Hfirst : (forall d' q, In d' done -> named (root, tns, x) q -> named d' q -> makes_nothing d') <-> (forall q, named (root, tns, x) q -> ~ In q (map r_name reg))).
  { split.
    - intros H q Hq Hi. apply Hreg in Hi as (d' & A & B & C). exact (C (H d' q A Hq B)).
    - intros H d' q A Hq B. destruct (classic_makes_nothing d') as [C|C]; [exact C|]. exfalso. apply (H q Hq), Hreg. eauto. }
  split.
  - intros [r H]. apply bind_ok in H as ([r1 es1] & Hs & H). destruct (Hnext r1 es1 Hs) as (reg1 & -> & Hr1 & Hreg1).
    destruct (proj1 Hstep (ex_intro _ _ Hs)) as [Hq Hdim]. destruct (proj1 (IH _ _ _ Hall' Hr1 Hreg1) (ex_intro _ r H)) as [IH1 IH2]. split.
    + intros d' [<-|Hd']; [exact Hq|auto].
    + intros before root' tns' x' after E Hk Hf. destruct before as [|b before].
      * cbn in E. injection E as <- <- <- <-. apply Hdim; [exact Hk|]. apply Hfirst. rewrite app_nil_r in Hf. exact Hf.
      * cbn in E. injection E as <- ->. eapply IH2; [reflexivity|exact Hk|]. rewrite <- app_assoc. exact Hf.
  - intros [H1 H2]. destruct (proj2 Hstep) as [[r1 es1] Hs].
    { split; [apply H1; left; reflexivity|]. intros Hk Hf. apply (H2 [] root tns x todo eq_refl Hk). rewrite app_nil_r. apply Hfirst, Hf. }
    rewrite Hs. cbn [bind]. destruct (Hnext r1 es1 Hs) as (reg1 & -> & Hr1 & Hreg1). apply (IH _ _ _ Hall' Hr1 Hreg1). split; [intros d' Hd'; apply H1; right; exact Hd'|].
    intros before root' tns' x' after -> Hk Hf. apply (H2 ((root, tns, x) :: before) root' tns' x' after eq_refl Hk). rewrite <- app_assoc in Hf. exact Hf.
Qed.

Theorem declarations_iff trees es : NoDup (map fst trees) -> prefixes_usual trees ->
  ((exists r, parse_report_elements trees (empty_rrepo, es) = Ok r) <-> declarable trees).
Proof.
  intros Hn Hp. rewrite parse_all_flat. change empty_rrepo with (stored []). rewrite (declarations_iff_aux trees Hn Hp (all_decls trees) [] [] es).
  - reflexivity.
  - reflexivity.
  - constructor.
  - intros q. cbn. split; [intros []|intros (d' & [] & _)].
Qed.
