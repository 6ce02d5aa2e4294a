(** When a label link can be read (C73). *)
From Verif Require Import Base Regex QNameModel ErrBase ErrTable ErrModel CtxModel InlineModel NetModel NetSpec NetProofs NetLinkProofs NetProps
  LangModel DtsProofs LinkModel LinkSpec LinkProofs LinkLoopProofs LinkOrderProofs LinkLabelProofs LinkNetProofs LinkDocProofs LinkReportProofs.
Local Open Scope nat_scope.

Ltac creates := match goal with |- exists e, insert ?es ?c ?x ?kw = Ok e =>
  unfold insert; let E := fresh in destruct (create c x kw) as [e|e] eqn:E; [cbn; eauto|vm_compute in E; discriminate] end.
Lemma can_dup es (x : xml) a b : exists e, insert es "DUPLICATE_LINKBASE_ARC" (Some x) [(u "arc_from", a); (u "arc_to", b)] = Ok e.
Proof. creates. Qed.
Lemma can_lost es (x : xml) a : exists e, insert es "XML_REFERENCED_LOCATOR_ELEMENT_NOT_FOUND" (Some x) [(u "elem_id", a)] = Ok e.
Proof. creates. Qed.
Lemma can_label es (x : xml) : exists e, insert es "MISSING_LABEL_LANGUAGE" (Some x) [] = Ok e.
Proof. creates. Qed.
Lemma can_footnote es (x : xml) : exists e, insert es "XML_MISSING_FOOTNOTE_LANGUAGE" (Some x) [] = Ok e.
Proof. creates. Qed.
Lemma can_tag es (x : xml) t : exists e, insert es "XML_UNSUPPORTED_RESOURCE_TAG" (Some x) [(u "tag", t)] = Ok e.
Proof. creates. Qed.
Lemma can_role es (x : xml) : exists e, insert es "MISSING_LINK_ROLE" (Some x) [] = Ok e.
Proof. creates. Qed.
Lemma can_type es (x : xml) t : exists e, insert es "UNSUPPORTED_LINK_TYPE" (Some x) [(u "type", t)] = Ok e.
Proof. creates. Qed.
Local Opaque insert create u.

Lemma bind_some {A B} (r : res A) (f : A -> res B) : (exists b, (do! x <- r ; f x) = Ok b) <-> exists a, r = Ok a /\ exists b, f a = Ok b.
Proof. split; [intros [b H]; apply bind_ok in H as (a & Ha & H); eauto|intros (a & Ha & b & H); exists b; apply bind_ok; eauto]. Qed.

Lemma arcs_ok_iff number : forall l seen es, (forall p, In p l -> usual (fst p)) ->
  ((exists r, link_arcs number seen l es = Ok r) <-> forall p, In p l -> xl "from" (fst p) <> None /\ xl "to" (fst p) <> None /\ xl "arcrole" (fst p) <> None).
Proof.
  induction l as [|[x around] l IH]; intros seen es Hu; cbn [link_arcs]; [split; [intros _ p []|eauto]|].
  assert (Hx := Hu (x, around) (or_introl eq_refl)). cbn [fst] in Hx. rewrite bind_some. split.
  - intros (a & Ha & r & H). apply (arc_of_ok number x a Hx) in Ha as (A & B & C). apply bind_ok in H as (es1 & _ & H). apply bind_ok in H as (r' & Hr & _).
    intros p [<-|Hp]; [cbn [fst]; repeat split; congruence|]. apply (proj1 (IH _ _ (fun q Hq => Hu q (or_intror Hq))) (ex_intro _ r' Hr) p Hp).
  - intros H. destruct (H (x, around) (or_introl eq_refl)) as (A & B & C). cbn [fst] in A, B, C.
    destruct (xl "from" x) as [f|] eqn:Ef; [|congruence]. destruct (xl "to" x) as [t|] eqn:Et; [|congruence]. destruct (xl "arcrole" x) as [r|] eqn:Er; [|congruence].
    apply (req_from x _ Hx) in Ef. apply (req_to x _ Hx) in Et. apply (req_arcrole x _ Hx) in Er. unfold arc_of. rewrite Ef, Et, Er. cbn [bind]. eexists. split; [reflexivity|].
    rewrite bind_some. assert (G : forall es1, exists b, (do! r0 <- link_arcs number (edge_of (Arc f t r (option_map number (attr x (u "order"))) (option_map number (attr x (u "weight"))) (attr x (u "preferredLabel"))) :: seen) l es1; Ok (Arc f t r (option_map number (attr x (u "order"))) (option_map number (attr x (u "weight"))) (attr x (u "preferredLabel")) :: fst r0, snd r0)) = Ok b).
    { intros es1. apply bind_some. destruct (proj2 (IH (edge_of (Arc f t r (option_map number (attr x (u "order"))) (option_map number (attr x (u "weight"))) (attr x (u "preferredLabel"))) :: seen) es1 (fun q Hq => Hu q (or_intror Hq)))) as [r' Hr']; [intros p Hp; apply H; right; exact Hp|]. eauto. }
    destruct (existsb _ seen); [|eauto]. cbn [a_from a_to]. destruct (can_dup es x f t) as [es1 E]. eauto.
Qed.

Lemma reference_ok_iff kids : (exists c, reference_content kids = Ok c) <-> forall k, In k kids -> x_tag k <> None.
Proof.
  unfold reference_content. generalize (@nil (str * option str)). induction kids as [|k kids IH]; intros acc; cbn; [split; [intros _ k []|eauto]|].
  destruct (x_tag k) as [t|] eqn:E.
  - rewrite IH. split; [intros H k' [<-|Hk]; [congruence|auto]|intros H k' Hk; apply H; auto].
  - split; [|intros H; exfalso; apply (H k); auto]. intros [c H]. exfalso. clear -H. induction kids as [|k' kids IH]; [discriminate|]. apply IH. exact H.
Qed.

Section Open.
Variable element_str : xml -> str.
Variable find_id : str -> option found.

Lemma locator_ok_iff i x around es : usual x -> xl "type" x = Some (u "locator") ->
  ((exists r, link_object element_str find_id i x around es = Ok r) <-> xl "href" x <> None).
Proof.
  intros Hu Ht. unfold link_object. assert (Ht' := proj2 (req_type x _ Hu) Ht). rewrite Ht'. cbn [bind]. rewrite str_eqb_refl. split.
  - intros [r H]. apply bind_ok in H as (href & Hh & _). apply (req_href x _ Hu) in Hh. congruence.
  - intros H. destruct (xl "href" x) as [href|] eqn:Eh; [|congruence]. apply (req_href x _ Hu) in Eh. rewrite Eh. cbn [bind].
    destruct (find_id _); [eauto|]. destruct (can_lost es x (last (split_char (ch "#") href) [])) as [es1 E]. rewrite E. cbn [bind]. eauto.
Qed.
Lemma resource_ok_iff i x around es lab : usual x -> xl "type" x = Some (u "resource") -> xl "label" x = Some lab -> x_tag x <> None ->
  ((exists r, link_object element_str find_id i x around es = Ok r) <-> xl "role" x <> None /\
     forall t k, x_tag x = Some t -> part_of (u "reference") t -> ~ part_of (u "label") t -> ~ part_of (u "footnote") t -> In k (x_kids x) -> x_tag k <> None).
Proof.
  intros Hu Ht Hl Htag. unfold link_object, parse_xml_resource. assert (Ht' := proj2 (req_type x _ Hu) Ht). rewrite Ht'. cbn [bind].
  destruct (str_eqb (u "resource") (u "locator")) eqn:E0; [apply str_eqb_eq in E0; exfalso; apply locator_resource; congruence|]. rewrite str_eqb_refl. cbn [negb].
  apply (req_label x _ Hu) in Hl. rewrite Hl. cbn [bind]. destruct (x_tag x) as [t|]; [|congruence].
  destruct (xl "role" x) as [role|] eqn:Er.
  - apply (req_role x _ Hu) in Er. rewrite Er. cbn [bind].
    assert (Hdone : forall (m : res (option resource * repo xml)), (exists r, (do! r <- m ; match fst r with Some res => Ok (Some (Obj i (resource_type res), Some res), snd r) | None => Ok (None, snd r) end) = Ok r) <-> exists r, m = Ok r).
    { intros m. rewrite bind_some. split; [intros (a & H & _); eauto|intros [a H]; exists a; split; [exact H|]; destruct (fst a); eauto]. }
    rewrite Hdone. destruct (contains (u "label") t) eqn:E1; [apply contains_part in E1|apply no_part in E1].
    + split; [intros _; split; [discriminate|intros t' k [= <-] _ Hn; contradiction]|intros _]. destruct (elem_lang _); [eauto|]. destruct (can_label es x) as [e E]. rewrite E. cbn. eauto.
    + destruct (contains (u "footnote") t) eqn:E2; [apply contains_part in E2|apply no_part in E2].
      * split; [intros _; split; [discriminate|intros t' k [= <-] _ _ Hn; contradiction]|intros _]. destruct (elem_lang _); [eauto|]. destruct (can_footnote es x) as [e E]. rewrite E. cbn. eauto.
      * destruct (contains (u "reference") t) eqn:E3; [apply contains_part in E3|apply no_part in E3].
        -- rewrite bind_some. split.
           ++ intros (c & Hc & _). split; [discriminate|]. intros t' k _ _ _ _. apply (proj1 (reference_ok_iff (x_kids x)) (ex_intro _ c Hc)).
           ++ intros [_ H]. destruct (proj2 (reference_ok_iff (x_kids x))) as [c Hc]; [intros k; apply (H t k); auto|eauto].
        -- split; [intros _; split; [discriminate|intros t' k [= <-] Hn; contradiction]|intros _]. destruct (can_tag es x t) as [e E]. rewrite E. cbn. eauto.
  - split; [|intros [[] _]; reflexivity]. intros [r H]. exfalso. apply bind_ok in H as (a & H & _). apply bind_ok in H as (role & H & _). apply (req_role x _ Hu) in H. congruence.
Qed.

Lemma parts_ok_iff : forall l i es,
  (forall p, In p l -> usual (fst p) /\ x_tag (fst p) <> None /\ (xl "type" (fst p) = Some (u "locator") \/ xl "type" (fst p) = Some (u "resource"))) ->
  ((exists r, link_entries element_str find_id i l es = Ok r) <-> forall x around, In (x, around) l -> xl "label" x <> None /\
     (xl "type" x = Some (u "locator") -> xl "href" x <> None) /\
     (xl "type" x = Some (u "resource") -> xl "role" x <> None /\
        forall t k, x_tag x = Some t -> part_of (u "reference") t -> ~ part_of (u "label") t -> ~ part_of (u "footnote") t -> In k (x_kids x) -> x_tag k <> None)).
Proof.
  induction l as [|[x around] l IH]; intros i es Hu; cbn [link_entries]; [split; [intros _ x around []|eauto]|].
  destruct (Hu (x, around) (or_introl eq_refl)) as (Hx & Htag & Ht). cbn [fst] in Hx, Htag, Ht. rewrite bind_some.
  assert (Hobj : forall lab, xl "label" x = Some lab -> ((exists r, link_object element_str find_id i x around es = Ok r) <->
     (xl "type" x = Some (u "locator") -> xl "href" x <> None) /\
     (xl "type" x = Some (u "resource") -> xl "role" x <> None /\
        forall t k, x_tag x = Some t -> part_of (u "reference") t -> ~ part_of (u "label") t -> ~ part_of (u "footnote") t -> In k (x_kids x) -> x_tag k <> None))).
  { intros lab Hl. assert (Hn := locator_resource). destruct Ht as [Ht|Ht].
    - rewrite (locator_ok_iff i x around es Hx Ht). split; [intros H; split; [auto|congruence]|intros [H _]; auto].
    - rewrite (resource_ok_iff i x around es lab Hx Ht Hl Htag). split; [intros H; split; [congruence|auto]|intros [_ H]; auto]. }
  split.
  - intros (lab & Hl & r & H). apply (req_label x _ Hx) in Hl. apply bind_ok in H as (o & Ho & H). apply bind_ok in H as (r' & Hr & _).
    intros y ay [[= <- <-]|Hy]; [split; [congruence|]; apply (Hobj lab Hl); eauto|].
    exact (proj1 (IH _ _ (fun q Hq => Hu q (or_intror Hq))) (ex_intro _ r' Hr) y ay Hy).
  - intros H. destruct (H x around (or_introl eq_refl)) as (A & B). destruct (xl "label" x) as [lab|] eqn:El; [|congruence].
    destruct (proj2 (Hobj lab eq_refl) B) as [o Ho]. apply (req_label x _ Hx) in El. exists lab. split; [exact El|]. rewrite Ho. cbn [bind]. apply bind_some.
    destruct (proj2 (IH (S i) (snd o) (fun q Hq => Hu q (or_intror Hq))) (fun y ay Hy => H y ay (or_intror Hy))) as [r Hr]. eauto.
Qed.

Variable number : str -> Q.
Variable edge_order : nat -> list edge -> list edge.
Variable root_order : nat -> list nat -> list nat.
Hypothesis Horders : orders edge_order root_order.

Lemma arcs_complete_iff link outside : usual link -> (forall x around, inside link outside x around -> usual x) ->
  forall es, (exists r, link_arcs number [] (typed_below [u "arc"] link outside) es = Ok r) <->
    forall x around, element_of link outside "arc" x around -> xl "from" x <> None /\ xl "to" x <> None /\ xl "arcrole" x <> None.
Proof.
  intros Hu Hin.
  assert (Hall : forall types p, In p (typed_below (map u types) link outside) -> usual (fst p)).
  { intros types [x around] Hp. apply (in_typed types link outside x around Hu) in Hp as (t & _ & Hp & _). apply (Hin x around Hp). }
  assert (Harcs : forall x around, In (x, around) (typed_below [u "arc"] link outside) <-> element_of link outside "arc" x around).
  { intros x around. change [u "arc"] with (map u ["arc"%string]). rewrite (in_typed _ link outside x around Hu). split; [intros (t & [<-|[]] & H); exact H|intros H; eexists; split; [|exact H]; cbn; auto]. }
  intros es. rewrite (arcs_ok_iff number _ [] es (Hall ["arc"%string])). split; [intros H x around Hx; apply (H (x, around)), Harcs, Hx|].
    intros H [x around] Hp. apply (H x around), Harcs, Hp.
Qed.
Lemma parts_complete_iff link outside : usual link -> (forall x around, inside link outside x around -> usual x) ->
  forall es, (exists r, link_entries element_str find_id 0 (link_parts link outside) es = Ok r) <->
    (forall x around, element_of link outside "locator" x around -> xl "label" x <> None /\ xl "href" x <> None) /\
    (forall x around, element_of link outside "resource" x around -> xl "label" x <> None /\ xl "role" x <> None /\
     forall t k, x_tag x = Some t -> part_of (u "reference") t -> ~ part_of (u "label") t -> ~ part_of (u "footnote") t ->
       In k (x_kids x) -> x_tag k <> None).
Proof.
  intros Hu Hin.
  assert (Hall : forall types p, In p (typed_below (map u types) link outside) -> usual (fst p)).
  { intros types [x around] Hp. apply (in_typed types link outside x around Hu) in Hp as (t & _ & Hp & _). apply (Hin x around Hp). }
  assert (Hty : forall p, In p (link_parts link outside) ->
    usual (fst p) /\ x_tag (fst p) <> None /\ (xl "type" (fst p) = Some (u "locator") \/ xl "type" (fst p) = Some (u "resource"))).
  { intros p Hp. change (link_parts link outside) with (typed_below (map u ["resource"; "locator"]%string) link outside) in Hp. split; [exact (Hall _ p Hp)|].
    destruct p as [x around]. apply (in_typed _ link outside x around Hu) in Hp as (t & Ht & Hp). cbn [fst]. split; [apply Hp|]. destruct Ht as [<-|[<-|[]]]; [right|left]; apply Hp. }
  assert (Hparts : forall x around, In (x, around) (link_parts link outside) <-> element_of link outside "locator" x around \/ element_of link outside "resource" x around).
  { intros x around. change (link_parts link outside) with (typed_below (map u ["resource"; "locator"]%string) link outside). rewrite (in_typed _ link outside x around Hu). split.
    - intros (t & [<-|[<-|[]]] & H); auto.
    - intros [H|H]; eexists; (split; [|exact H]); cbn; auto. }
  intros es. rewrite (parts_ok_iff _ 0 es Hty). assert (Hn := locator_resource). split.
    - intros H. split; intros x around Hx.
      + destruct (H x around (proj2 (Hparts x around) (or_introl Hx))) as (A & B & _). split; [exact A|apply B, Hx].
      + destruct (H x around (proj2 (Hparts x around) (or_intror Hx))) as (A & _ & B). split; [exact A|apply B, Hx].
    - intros [H1 H2] x around Hx. apply Hparts in Hx as [Hx|Hx].
      + destruct (H1 x around Hx) as [A B]. destruct Hx as (_ & _ & Hx). split; [exact A|]. split; [auto|congruence].
      + destruct (H2 x around Hx) as [A B]. destruct Hx as (_ & _ & Hx). split; [exact A|]. split; [congruence|auto].
Qed.
Lemma label_run_iff link outside role st : usual link -> (forall x around, inside link outside x around -> usual x) ->
  ((exists r, run_factory element_str number find_id edge_order root_order KLabel link outside role st = Ok r) <->
   complete_link link outside /\ expected_label_link find_id link outside).
Proof.
  intros Hu Hin.
  pose proof (arcs_complete_iff link outside Hu Hin) as C1. pose proof (parts_complete_iff link outside Hu Hin) as C2.
  split.
  - intros [[ws st'] H]. assert (H' := H). apply run_factory_inv in H' as (arcs & es1 & entries & es2 & h & nets & dups & added & A & B & _). split.
    + split; [apply (C1 (ls_errors st)); eauto|]. apply (C2 es1). eauto.
    + apply (label_opens_iff element_str number find_id edge_order root_order Horders link outside Hu Hin st es1 es2 arcs entries A B role). eauto.
  - intros [[H1 H2] H]. destruct (proj2 (C1 (ls_errors st)) H1) as [[arcs es1] A]. destruct (proj2 (C2 es1) H2) as [[entries es2] B].
    apply (label_opens_iff element_str number find_id edge_order root_order Horders link outside Hu Hin st es1 es2 arcs entries A B role), H.
Qed.
End Open.
