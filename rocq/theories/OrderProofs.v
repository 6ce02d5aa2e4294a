(** Proofs for C109: documents in another order. *)
From Coq Require Import QArith Permutation.
From Verif Require Import Base QNameModel ErrBase ErrTable ErrModel CtxModel CtxSpec CtxProofs CtxParseProofs CtxExactProofs.
From Verif Require CtxReportSpec CtxReportProofs ConceptModel ConceptSpec ConceptLoad ConceptProofs ConceptProps ConceptOpen NetModel NetSpec LangModel LinkModel LinkSpec
  LinkProofs LinkReadSpec CompModel CompSpec.
From Verif Require Import FilingModel FilingSpec FilingProofs FilingStages FilingOpenSpec OrderSpec.
Local Open Scope nat_scope.

(** ** Lists *)

Section Pairs.
Context {A : Type} (R : A -> A -> Prop).
Definition paired (l : list A) : Prop := forall a x b y c, l = a ++ x :: b ++ y :: c -> R x y.
Lemma paired_iff l : paired l <-> ForallOrdPairs R l.
Proof.
  split.
  - induction l as [|x l IH]; intros H; constructor.
    + apply Forall_forall. intros y Hy. apply in_split in Hy as (b & c & ->). apply (H [] x b y c). reflexivity.
    + apply IH. intros a y b z c E. apply (H (x :: a) y b z c). rewrite E. reflexivity.
  - intros H. induction H as [|x l HF HP IH]; intros a y b z c E; [destruct a; discriminate E|].
    destruct a as [|w a]; injection E as -> E.
    + rewrite Forall_forall in HF. apply HF. rewrite E. apply in_or_app. right. left. reflexivity.
    + eapply IH. exact E.
Qed.
Hypothesis Rsym : forall x y, R x y -> R y x.
Lemma pairs_perm l l' : Permutation l l' -> ForallOrdPairs R l -> ForallOrdPairs R l'.
Proof.
  intros P. induction P as [|x l l' P IH|x y l|l l' l'' P1 IH1 P2 IH2]; intros H; [exact H| | |auto].
  - inversion H as [|? ? HF HP]; subst. constructor; [|auto]. rewrite Forall_forall in *. intros y Hy. apply HF. eapply Permutation_in; [apply Permutation_sym, P|exact Hy].
  - inversion H as [|? ? HF HP]; subst. inversion HP as [|? ? HF' HP']; subst. inversion HF as [|? ? Hxy HF'']; subst.
    constructor; [constructor; [apply Rsym, Hxy|exact HF']|]. constructor; assumption.
Qed.
Lemma paired_perm l l' : Permutation l l' -> paired l -> paired l'.
Proof. rewrite !paired_iff. apply pairs_perm. Qed.
End Pairs.

Lemma same_split {A} (R : A -> A -> Prop) l a x b a' y b' : paired R l -> l = a ++ x :: b -> l = a' ++ y :: b' -> (forall u v, R u v -> R v u) ->
  x = y \/ R x y.
Proof.
  intros H E E' S. destruct (Nat.lt_trichotomy (length a) (length a')) as [L|[L|L]].
  - right. rewrite E in E'. assert (exists m, a' = a ++ x :: m) as (m & ->).
    { clear -E' L. revert a' E' L. induction a as [|z a IH]; intros [|w a'] E' L; cbn in L; try lia.
      - injection E' as -> E'. exists a'. reflexivity.
      - injection E' as -> E'. destruct (IH a' E') as (m & ->); [lia|]. exists m. reflexivity. }
    apply (H a x m y b'). rewrite E. rewrite <- app_assoc in E'. exact E'.
  - left. rewrite E in E'. clear -E' L. revert a' E' L. induction a as [|z a IH]; intros [|w a'] E' L; cbn in L; try lia; injection E' as E1 E2; [exact E1|]. eapply IH; [exact E2|lia].
  - right. apply S. rewrite E in E'. assert (exists m, a = a' ++ y :: m) as (m & ->).
    { clear -E' L. revert a E' L. induction a' as [|z a' IH]; intros [|w a] E' L; cbn in L; try lia.
      - injection E' as -> E'. exists a. reflexivity.
      - injection E' as -> E'. destruct (IH a E') as (m & ->); [lia|]. exists m. reflexivity. }
    apply (H a' y m x b). rewrite E. rewrite <- app_assoc. reflexivity.
Qed.

(** ** Declarations *)

Section Documents.
Variables trees1 trees2 : list (str * xml).
Hypothesis Hperm : Permutation trees1 trees2.

Lemma docs_perm : Permutation (dict_values trees1) (dict_values trees2).
Proof. apply Permutation_map, Hperm. Qed.
Lemma docs_in d : In d (dict_values trees1) <-> In d (dict_values trees2).
Proof. split; apply Permutation_in; [|apply Permutation_sym]; exact docs_perm. Qed.
Lemma decls_perm : Permutation (ConceptSpec.all_decls trees1) (ConceptSpec.all_decls trees2).
Proof. apply Permutation_flat_map, Hperm. Qed.
Lemma decls_in d : In d (ConceptSpec.all_decls trees1) <-> In d (ConceptSpec.all_decls trees2).
Proof. split; apply Permutation_in; [|apply Permutation_sym]; exact decls_perm. Qed.
Lemma keys_to : NoDup (map fst trees1) -> NoDup (map fst trees2).
Proof. apply Permutation_NoDup, Permutation_map, Hperm. Qed.
Lemma names_once_to : names_once trees1 -> names_once trees2.
Proof.
  intros H a d b d' c q E Hd Hd'.
  refine (paired_perm (fun d d' => forall q, ConceptSpec.named d q -> ConceptSpec.named d' q -> ConceptSpec.makes_nothing d \/ ConceptSpec.makes_nothing d') _ _ _ decls_perm _ a d b d' c E q Hd Hd').
  - intros x y R q' A B. specialize (R q' B A). tauto.
  - intros a' x b' y c' E' q'. eapply H. exact E'.
Qed.
Lemma ids_to : ConceptSpec.ids_distinct trees1 -> ConceptSpec.ids_distinct trees2.
Proof.
  intros H a d b d' c i E.
  refine (paired_perm (fun d d' : ConceptSpec.decl => forall i, attr (snd d) (u "id") = Some i -> attr (snd d') (u "id") <> Some i) _ _ _ decls_perm _ a d b d' c E i).
  - intros x y R j A B. exact (R j B A).
  - intros a' x b' y c' E' j. eapply H. exact E'.
Qed.
Lemma fact_elements_perm : Permutation (all_fact_elements (dict_values trees1)) (all_fact_elements (dict_values trees2)).
Proof. apply Permutation_flat_map, docs_perm. Qed.
Lemma fact_elements_in ix : In ix (all_fact_elements (dict_values trees1)) <-> In ix (all_fact_elements (dict_values trees2)).
Proof. split; apply Permutation_in; [|apply Permutation_sym]; exact fact_elements_perm. Qed.
Lemma fact_ids_to : fact_ids_distinct (dict_values trees1) -> fact_ids_distinct (dict_values trees2).
Proof.
  intros H a d b d' c i E.
  refine (paired_perm (fun d d' : xml * xml => forall i, attr (snd d) (u "id") = Some i -> attr (snd d') (u "id") <> Some i) _ _ _ fact_elements_perm _ a d b d' c E i).
  - intros x y R j A B. exact (R j B A).
  - intros a' x b' y c' E' j. eapply H. exact E'.
Qed.
Lemma once_to : once trees1 -> once trees2.
Proof. intros (A & B & C & D). split; [exact (keys_to A)|]. split; [exact (names_once_to B)|]. split; [exact (ids_to C)|exact (fact_ids_to D)]. Qed.
Lemma prefixes_to : ConceptLoad.prefixes_usual trees1 -> ConceptLoad.prefixes_usual trees2.
Proof. intros H root tns x Hd. apply (H root tns x), decls_in, Hd. Qed.
Lemma occurs_to x : occurs (dict_values trees1) x <-> occurs (dict_values trees2) x.
Proof. split; intros (i & H & K); exists i; (split; [apply docs_in, H|exact K]). Qed.
Lemma links_to link outside : LinkSpec.extended_link (dict_values trees1) link outside <-> LinkSpec.extended_link (dict_values trees2) link outside.
Proof. split; intros ((d & H & K) & R); (split; [exists d; split; [apply docs_in, H|exact K]|exact R]). Qed.
Lemma usual_to : LinkSpec.all_usual (dict_values trees1) -> LinkSpec.all_usual (dict_values trees2).
Proof. intros H link outside Hl. apply H, links_to, Hl. Qed.

Lemma first_made_to d q before after : names_once trees1 -> ConceptSpec.all_decls trees2 = before ++ d :: after -> ConceptSpec.named d q -> ~ ConceptSpec.makes_nothing d ->
  forall d', In d' before -> ConceptSpec.named d' q -> ConceptSpec.makes_nothing d'.
Proof.
  intros Ho E Hq Hn d' Hd' Hq'. apply in_split in Hd' as (b1 & b2 & ->). rewrite <- app_assoc in E. cbn [app] in E.
  destruct (names_once_to Ho _ _ _ _ _ q E Hq' Hq) as [H|H]; [exact H|contradiction].
Qed.
Lemma named_document name t root : ConceptSpec.document_named trees1 root name t -> ConceptSpec.document_named trees2 root name t.
Proof.
  intros [H|(A & B & C)]; [left; exact H|right]. split; [exact A|]. split; [exact B|]. eapply Permutation_in; [exact Hperm|exact C].
Qed.
Lemma domain_to root x ty : ConceptSpec.domain_type trees1 root x ty -> ConceptSpec.domain_type trees2 root x ty.
Proof.
  intros [H|[[(n & i & t & A & B & C & D & E) H]|(y & t & q & (n & i & t' & A & B & C & D & E) & H)]]; [left; exact H|right; left|right; right].
  - split; [|exact H]. exists n, i, t. apply named_document in D. auto.
  - exists y, t, q. split; [|exact H]. exists n, i, t'. apply named_document in D. auto.
Qed.
Lemma declarable_to : names_once trees1 -> ConceptOpen.declarable trees1 -> ConceptOpen.declarable trees2.
Proof.
  intros Ho (A & B). split; [intros d Hd; apply A, decls_in, Hd|]. intros before root tns x after E Hk _.
  assert (Hin : In (root, tns, x) (ConceptSpec.all_decls trees1)) by (apply decls_in; rewrite E; apply in_elt).
  apply in_split in Hin as (b & a & E1). destruct (B b root tns x a E1 Hk) as [ty Hty].
  - intros d' q Hd' Hq Hq'. apply in_split in Hd' as (b1 & b2 & ->). rewrite <- app_assoc in E1. cbn [app] in E1. destruct (Ho _ _ _ _ _ q E1 Hq' Hq) as [H|H]; [exact H|].
    exfalso. destruct H as [H|[H _]]; [exact (H _ Hk)|]. pose proof (ConceptProofs.declares_one _ _ _ Hk H). discriminate.
  - exists ty. apply domain_to, Hty.
Qed.
Lemma made_to x : names_once trees1 -> ConceptSpec.first_made trees1 x -> ConceptSpec.first_made trees2 x.
Proof.
  intros Ho (before & d & after & E & Hm & _).
  assert (Hin : In d (ConceptSpec.all_decls trees2)) by (apply decls_in; rewrite E; apply in_elt).
  apply in_split in Hin as (b & a & E2). exists b, d, a. split; [exact E2|]. split.
  - destruct d as [[root tns] y]. destruct Hm as (A & B & C). split; [exact A|]. split; [exact B|].
    destruct (ConceptModel.r_body x) as [c| | | |ty|]; try exact C. destruct C as [C D]. split; [exact C|apply domain_to, D].
  - eapply first_made_to; [exact Ho|exact E2|exact (ConceptLoad.makes_named _ _ _ Hm)|exact (ConceptLoad.makes_not_nothing _ _ _ Hm)].
Qed.
End Documents.

(** The same report elements are made. *)
Lemma registered_to trees1 trees2 es1 es2 r1 r2 e1 e2 : Permutation trees1 trees2 -> NoDup (map fst trees1) -> ConceptLoad.prefixes_usual trees1 -> names_once trees1 ->
  ConceptModel.parse_report_elements trees1 (ConceptModel.empty_rrepo, es1) = Ok (r1, e1) ->
  ConceptModel.parse_report_elements trees2 (ConceptModel.empty_rrepo, es2) = Ok (r2, e2) ->
  Permutation (ConceptModel.rr_get_all r1) (ConceptModel.rr_get_all r2).
Proof.
  intros P Hk Hp Ho H1 H2.
  destruct (ConceptProps.C56_first_declaration _ _ _ _ Hk Hp H1) as (A & N & _).
  destruct (ConceptProps.C56_first_declaration _ _ _ _ (keys_to _ _ P Hk) (prefixes_to _ _ P Hp) H2) as (B & N' & _).
  apply NoDup_Permutation; [exact (NoDup_map_inv _ _ N)|exact (NoDup_map_inv _ _ N')|]. intros x. rewrite A, B. split.
  - apply (made_to _ _ P), Ho.
  - apply (made_to _ _ (Permutation_sym P)), (names_once_to _ _ P), Ho.
Qed.

(** ** Elements that differ in their numbers *)

Lemma apart_same e e' : apart e = apart e' <-> e_name e = e_name e' /\ e_id e = e_id e' /\ e_kind e = e_kind e'.
Proof. unfold apart. split; [intros [= A B C]; auto|intros (-> & -> & ->); reflexivity]. Qed.

Section Elements.
Variables l1 l2 : list element.
Hypothesis H12 : forall e, In e l1 -> exists e', In e' l2 /\ apart e = apart e'.
Hypothesis H21 : forall e, In e l2 -> exists e', In e' l1 /\ apart e = apart e'.
Hypothesis N1 : NoDup (map e_name l1).
Hypothesis N2 : NoDup (map e_name l2).

Lemma by_name (l : list element) e e' : NoDup (map e_name l) -> In e l -> In e' l -> e_name e = e_name e' -> e = e'.
Proof.
  induction l as [|x l IH]; intros H He He' E; [destruct He|]. cbn [map] in H. inversion H as [|? ? Hx HN]; subst.
  destruct He as [->|He], He' as [->|He']; [reflexivity| | |auto]; exfalso; apply Hx; [rewrite E|rewrite <- E]; apply in_map; assumption.
Qed.
Lemma nodup_apart l : NoDup (map e_name l) -> NoDup (map apart l).
Proof. intros H. apply NoDup_map_inv with (f := e_name). rewrite map_map. exact H. Qed.
Lemma elements_perm : Permutation (map apart l1) (map apart l2).
Proof.
  apply NoDup_Permutation; [apply nodup_apart, N1|apply nodup_apart, N2|]. intros a. rewrite !in_map_iff. split; intros (e & <- & He).
  - destruct (H12 e He) as (e' & A & B). exists e'. auto.
  - destruct (H21 e He) as (e' & A & B). exists e'. auto.
Qed.

Hypothesis I1 : forall e e' i, In e l1 -> In e' l1 -> e_id e = Some i -> e_id e' = Some i -> e = e'.
Lemma ids2 e e' i : In e l2 -> In e' l2 -> e_id e = Some i -> e_id e' = Some i -> e = e'.
Proof.
  intros H H' E E'. destruct (H21 e H) as (x & A & B), (H21 e' H') as (x' & A' & B'). pose proof (proj1 (apart_same _ _) B) as (C1 & C2 & _).
  pose proof (proj1 (apart_same _ _) B') as (C1' & C2' & _). apply (by_name l2); try assumption. rewrite C1, C1'. f_equal.
  apply (I1 x x' i); congruence.
Qed.
Lemma last_id_one l i e : (forall e e' i, In e l -> In e' l -> e_id e = Some i -> e_id e' = Some i -> e = e') -> NoDup (map e_name l) ->
  (last_id l i e <-> In e l /\ e_id e = Some i).
Proof.
  intros HI HN. split.
  - intros (b & a & -> & H & _). split; [apply in_elt|exact H].
  - intros [H E]. apply in_split in H as (b & a & ->). exists b, a. split; [reflexivity|]. split; [exact E|]. intros z Hz Ez.
    assert (z = e) by (apply (HI z e i); [apply in_or_app; right; right; exact Hz|apply in_elt|exact Ez|exact E]). subst z.
    rewrite map_app in HN. cbn [map] in HN. apply NoDup_remove_2 in HN. apply HN. apply in_or_app. right. apply in_map, Hz.
Qed.
Lemma last_id_to i e e' : last_id l1 i e -> In e' l2 -> apart e = apart e' -> last_id l2 i e'.
Proof.
  intros H He' A. apply last_id_one; [exact ids2|exact N2|]. split; [exact He'|]. apply (last_id_one l1 i e I1 N1) in H as [_ H]. apply apart_same in A as (_ & A & _). congruence.
Qed.
Lemma last_id_some i e : last_id l1 i e -> exists e', In e' l2 /\ apart e = apart e' /\ last_id l2 i e'.
Proof.
  intros H. assert (He : In e l1) by (apply (last_id_one l1 i e I1 N1) in H; tauto). destruct (H12 e He) as (e' & A & B). exists e'. split; [exact A|]. split; [exact B|].
  eapply last_id_to; eassumption.
Qed.
Lemma no_id_to i : (forall e, In e l1 -> e_id e <> Some i) -> forall e, In e l2 -> e_id e <> Some i.
Proof. intros H e He. destruct (H21 e He) as (e' & A & B). apply apart_same in B as (_ & -> & _). exact (H e' A). Qed.

Lemma leads_to_some loc e : leads_to l1 loc e -> exists e', In e' l2 /\ apart e = apart e' /\ leads_to l2 loc e'.
Proof. intros (h & A & B). apply last_id_some in B as (e' & C & D & E). exists e'. split; [exact C|]. split; [exact D|]. exists h. auto. Qed.
Lemma leads_to_to loc e e' : leads_to l1 loc e -> In e' l2 -> apart e = apart e' -> leads_to l2 loc e'.
Proof. intros (h & A & B) C D. exists h. split; [exact A|]. eapply last_id_to; eassumption. Qed.
Lemma named_to link outside s : named l1 link outside s -> named l2 link outside s.
Proof. intros (loc & al & e & A & B & C). apply leads_to_some in B as (e' & _ & _ & B). exists loc, al, e'. auto. Qed.
Lemma arrives_to link outside s : arrives l1 link outside s -> arrives l2 link outside s.
Proof.
  intros H. induction H as [s A B|s t arc aa _ IH A B C D]; [apply arrive_first; [apply named_to, A|exact B]|].
  eapply arrive_next; try eassumption. apply named_to, D.
Qed.
Lemma mentioned_to link outside e e' : mentioned_there l1 link outside e -> In e' l2 -> apart e = apart e' -> mentioned_there l2 link outside e'.
Proof. intros (loc & al & s & A & B & C & D) He' E. exists loc, al, s. split; [exact A|]. split; [eapply leads_to_to; eassumption|]. split; [exact C|apply arrives_to, D]. Qed.
Lemma put_below_to link outside e d e' d' : put_below_there l1 link outside e d -> In e' l2 -> apart e = apart e' -> In d' l2 -> apart d = apart d' ->
  put_below_there l2 link outside e' d'.
Proof.
  intros (arc & aa & from & af & to & at' & s & A1 & A2 & A3 & A4 & A5 & A6 & B & C & D) He E Hd F. exists arc, aa, from, af, to, at', s.
  repeat (split; [assumption|]). split; [eapply leads_to_to; eassumption|]. split; [eapply leads_to_to; eassumption|]. apply arrives_to, D.
Qed.
End Elements.

Lemma labelled_to (trees1 trees2 : list (str * xml)) l1 l2 e e' l : Permutation trees1 trees2 ->
  (forall e, In e l2 -> exists e', In e' l1 /\ apart e = apart e') -> NoDup (map e_name l1) -> NoDup (map e_name l2) ->
  (forall e e' i, In e l1 -> In e' l1 -> e_id e = Some i -> e_id e' = Some i -> e = e') ->
  labelled (dict_values trees1) l1 e l -> In e' l2 -> apart e = apart e' -> labelled (dict_values trees2) l2 e' l.
Proof.
  intros P H21 N1 N2 I1 (link & outside & loc & al & r & ar & href & role & A & B & C & D & E & F & G & H) He' Ha. exists link, outside, loc, al, r, ar, href, role.
  split; [apply (links_to _ _ P), A|]. repeat (split; [assumption|]). split; [|exact H]. eapply last_id_to; eassumption.
Qed.

(** ** Facts *)

Lemma set_apart {K A B} (eqb : K -> K -> bool) (g : A -> B) d k v :
  map (fun p => (fst p, g (snd p))) (dict_set eqb d k v) = dict_set eqb (map (fun p => (fst p, g (snd p))) d) k (g v).
Proof.
  induction d as [|[k' v'] d IH]; [reflexivity|]. cbn [dict_set map fst snd]. destruct (eqb k' k); cbn [map fst snd]; [reflexivity|]. f_equal. exact IH.
Qed.
Lemma add_apart c x : context_apart (add_characteristic c x) = add_characteristic (context_apart c) (char_apart x).
Proof.
  unfold add_characteristic. replace (aspect_of (char_apart x)) with (aspect_of x) by (destruct x; reflexivity). cbn [context_apart c_aspects].
  destruct (existsb _ _); [reflexivity|]. unfold context_apart. cbn [c_id c_aspects c_chars]. f_equal. apply set_apart.
Qed.
Lemma adds_apart l : forall c, context_apart (fold_left add_characteristic l c) = fold_left add_characteristic (map char_apart l) (context_apart c).
Proof. induction l as [|x l IH]; intros c; [reflexivity|]. cbn [fold_left map]. rewrite IH, add_apart. reflexivity. Qed.

Lemma measure_one m q q' : reads_measure m q -> reads_measure m q' -> q = q'.
Proof. intros (t & A & B) (t' & A' & B'). congruence. Qed.
Lemma divide_one l ns ds : reads_divide l ns ds -> forall ns' ds', reads_divide l ns' ds' -> ns = ns' /\ ds = ds'.
Proof.
  intros H. induction H as [|nd m r l q ns ds A B C _ IH|nd m r l q ns ds A A' B C _ IH|nd l ns ds A A' _ IH]; intros ns' ds' H'; inversion H'; subst; try contradiction; auto;
    match goal with K : reads_divide l _ _ |- _ => apply IH in K as [<- <-] end; try (split; congruence).
  - assert (m = m0) by congruence. subst m0. rewrite (measure_one m q q0) by assumption. auto.
  - assert (m = m0) by congruence. subst m0. rewrite (measure_one m q q0) by assumption. auto.
Qed.
Lemma unit_one x ns ds ns' ds' : reads_unit x ns ds -> reads_unit x ns' ds' -> ns = ns' /\ ds = ds'.
Proof.
  intros H H'.
  destruct H as [m q A B C|dv ns ds A B C D|m A B C|A], H' as [m' q' A' B' C'|dv' ns' ds' A' B' C' D'|m' A' B' C'|A']; try (rewrite A in A'; injection A' as <-); try contradiction; auto;
    try (rewrite A in A'; exfalso; apply A'; reflexivity); try (rewrite A' in A; exfalso; apply A; reflexivity).
  - rewrite (measure_one m q q') by assumption. auto.
  - eapply divide_one; eassumption.
Qed.
Lemma unit_exact_one i id c c' : unit_exact i id c -> unit_exact i id c' -> c = c'.
Proof.
  intros (x & ns & ds & A & B & ->) (x' & ns' & ds' & A' & B' & ->). rewrite A in A'. injection A' as <-. destruct (unit_one _ _ _ _ _ B B') as [<- <-]. reflexivity.
Qed.
Lemma entity_one x r r' : entity_exact x r -> entity_exact x r' -> r = r'.
Proof.
  destruct r as [c|], r' as [c'|]; cbn [entity_exact]; [| | |reflexivity].
  - intros (id & s & (i & A & B & C) & ->) (id' & s' & (i' & A' & B' & C') & ->). congruence.
  - intros (id & s & A & _) H. destruct (H _ _ A).
  - intros H (id & s & A & _). destruct (H _ _ A).
Qed.
Lemma writes_period_one pd x p p' : writes_period pd x p -> writes_period pd x p' -> p = p'.
Proof. intros H H'. inversion H; subst; inversion H'; subst; congruence. Qed.
Lemma period_one pd x r r' : period_exact pd x r -> period_exact pd x r' -> r = r'.
Proof.
  destruct r as [c|], r' as [c'|]; cbn [period_exact]; [| | |reflexivity].
  - intros (p & A & ->) (p' & A' & ->). rewrite (writes_period_one _ _ _ _ A A'). reflexivity.
  - intros (p & A & _) H. destruct (H _ A).
  - intros H (p & A & _). destruct (H _ A).
Qed.

(** Two repositories whose report elements differ only in their numbers *)
Definition by_kind (is_t : element -> bool) : Prop := forall e e', e_kind e = e_kind e' -> is_t e = is_t e'.
Definition finds_as (rep1 rep2 : repository) : Prop :=
  forall is_t q e, by_kind is_t -> get_typed_by_qname is_t rep1 q = Ok e -> exists e', get_typed_by_qname is_t rep2 q = Ok e' /\ apart e = apart e'.
Lemma concept_by_kind : by_kind is_concept.
Proof. intros e e' H. unfold is_concept. rewrite H. reflexivity. Qed.
Lemma dimension_by_kind : by_kind is_dimension.
Proof. intros e e' H. unfold is_dimension. rewrite H. reflexivity. Qed.
Lemma member_by_kind : by_kind is_member.
Proof. intros e e' H. unfold is_member. rewrite H. reflexivity. Qed.

Section Facts.
Variable parse_date : str -> res date.
Variables rep1 rep2 : repository.
Hypothesis T12 : finds_as rep1 rep2.
Hypothesis T21 : finds_as rep2 rep1.

Lemma names_concept_to x t e : names_concept rep1 x t e -> exists e', names_concept rep2 x t e' /\ apart e = apart e'.
Proof. intros (A & q & B & C). apply T12 in C as (e' & C & D); [|exact concept_by_kind]. exists e'. split; [|exact D]. split; [exact A|]. exists q. auto. Qed.
Lemma writes_explicit_to x dt mt d m : writes_explicit rep1 x dt mt d m -> exists d' m', writes_explicit rep2 x dt mt d' m' /\ apart d = apart d' /\ apart m = apart m'.
Proof.
  intros (A & B & C & (q & D & E) & q' & F & G). apply T12 in E as (d' & E & E'); [|exact dimension_by_kind]. apply T12 in G as (m' & G & G'); [|exact member_by_kind].
  exists d', m'. split; [|auto]. split; [exact A|]. split; [exact B|]. split; [exact C|]. split; [exists q|exists q']; auto.
Qed.
Lemma writes_typed_to x dt v d : writes_typed rep1 x dt v d -> exists d', writes_typed rep2 x dt v d' /\ apart d = apart d'.
Proof.
  intros (A & B & q & D & E). apply T12 in E as (d' & E & E'); [|exact dimension_by_kind]. exists d'. split; [|auto]. split; [exact A|]. split; [exact B|]. exists q. auto.
Qed.
Lemma concept_one x e e' : concept_exact rep1 x e -> concept_exact rep2 x e' -> apart e = apart e'.
Proof. intros A B. apply names_concept_to in A as (e2 & (_ & q & A & A') & A2). destruct B as (_ & q' & B & B'). congruence. Qed.
Lemma writes_explicit_one x rep dt mt d m dt' mt' d' m' : writes_explicit rep x dt mt d m -> writes_explicit rep x dt' mt' d' m' -> dt = dt' /\ mt = mt' /\ d = d' /\ m = m'.
Proof.
  intros (A & B & C & (q & D & E) & q1 & F & G) (A' & B' & C' & (q' & D' & E') & q1' & F' & G'). rewrite A in A'. injection A' as <-. rewrite B in B'. injection B' as <-.
  rewrite D in D'. injection D' as <-. rewrite F in F'. injection F' as <-. rewrite E in E'. injection E' as <-. rewrite G in G'. injection G' as <-. auto.
Qed.
Lemma writes_typed_one x rep dt v d dt' v' d' : writes_typed rep x dt v d -> writes_typed rep x dt' v' d' -> dt = dt' /\ v = v' /\ d = d'.
Proof.
  intros (A & (k & r & B & C) & q & D & E) (A' & (k' & r' & B' & C') & q' & D' & E'). rewrite A in A'. injection A' as <-. rewrite B in B'. injection B' as <- <-.
  rewrite C in C'. injection C' as <-. rewrite D in D'. injection D' as <-. rewrite E in E'. injection E' as <-. auto.
Qed.
End Facts.

Section Facts2.
Variable parse_date : str -> res date.
Variables rep1 rep2 : repository.
Hypothesis T12 : finds_as rep1 rep2.
Hypothesis T21 : finds_as rep2 rep1.

Lemma explicit_one x r r' : explicit_exact rep1 x r -> explicit_exact rep2 x r' -> option_map char_apart r = option_map char_apart r'.
Proof.
  destruct r as [c|], r' as [c'|]; cbn [explicit_exact option_map]; [| | |reflexivity].
  - intros (dt & mt & d & m & A & ->) (dt' & mt' & d' & m' & A' & ->). apply (writes_explicit_to _ _ T12) in A as (d2 & m2 & A & E1 & E2).
    destruct (writes_explicit_one _ _ _ _ _ _ _ _ _ _ A A') as (<- & <- & <- & <-). cbn [char_apart]. rewrite E1, E2. reflexivity.
  - intros (dt & mt & d & m & A & ->) H. apply (writes_explicit_to _ _ T12) in A as (d2 & m2 & A & _). destruct (H _ _ _ _ A).
  - intros H (dt & mt & d & m & A & ->). apply (writes_explicit_to _ _ T21) in A as (d2 & m2 & A & _). destruct (H _ _ _ _ A).
Qed.
Lemma typed_one x r r' : typed_exact rep1 x r -> typed_exact rep2 x r' -> option_map char_apart r = option_map char_apart r'.
Proof.
  destruct r as [c|], r' as [c'|]; cbn [typed_exact option_map]; [| | |reflexivity].
  - intros (dt & v & d & A & ->) (dt' & v' & d' & A' & ->). apply (writes_typed_to _ _ T12) in A as (d2 & A & E1).
    destruct (writes_typed_one _ _ _ _ _ _ _ _ A A') as (<- & <- & <-). cbn [char_apart]. rewrite E1. reflexivity.
  - intros (dt & v & d & A & ->) H. apply (writes_typed_to _ _ T12) in A as (d2 & A & _). destruct (H _ _ _ A).
  - intros H (dt & v & d & A & ->). apply (writes_typed_to _ _ T21) in A as (d2 & A & _). destruct (H _ _ _ A).
Qed.
Lemma dimensions_one xe ds ds' : dimensions_are (explicit_exact rep1) (typed_exact rep1) xe ds -> dimensions_are (explicit_exact rep2) (typed_exact rep2) xe ds' ->
  map char_apart ds = map char_apart ds'.
Proof.
  unfold dimensions_are. destruct (find_kid _ _) as [seg|]; [|intros -> ->; reflexivity]. intros (rs & A & ->) (rs' & A' & ->).
  revert rs' A'. induction A as [|x r l rs H _ IH]; intros rs' A'; inversion A' as [|? r' ? rs2 H' A'']; subst; [reflexivity|].
  assert (E : option_map char_apart r = option_map char_apart r').
  { destruct H as [[H1 H]|(H1 & H2 & H)], H' as [[H1' H']|(H1' & H2' & H')]; try contradiction; [exact (explicit_one _ _ _ H H')|exact (typed_one _ _ _ H H')]. }
  specialize (IH rs2 A''). unfold somes in *. cbn [flat_map]. rewrite !map_app, IH. f_equal. destruct r, r'; cbn in *; congruence.
Qed.
Lemma fact_one i x f f' :
  fact_as (concept_exact rep1) unit_exact entity_exact (period_exact parse_date) (explicit_exact rep1) (typed_exact rep1) i x f ->
  fact_as (concept_exact rep2) unit_exact entity_exact (period_exact parse_date) (explicit_exact rep2) (typed_exact rep2) i x f' ->
  fact_apart f = fact_apart f'.
Proof.
  intros (cid & xc & e & us & A & B & C & D & (id & xp & xe & p & en & ds & E1 & E2 & E3 & E4 & E5 & E6 & E7) & F & G & H)
    (cid' & xc' & e' & us' & A' & B' & C' & D' & (id' & xp' & xe' & p' & en' & ds' & E1' & E2' & E3' & E4' & E5' & E6' & E7') & F' & G' & H').
  rewrite A in A'. injection A' as <-. rewrite B in B'. injection B' as <-. rewrite E1 in E1'. injection E1' as <-. rewrite E2 in E2'. injection E2' as <-. rewrite E3 in E3'. injection E3' as <-.
  unfold fact_apart. f_equal; [|congruence|congruence]. rewrite E7, E7', !adds_apart. f_equal. rewrite !map_app. cbn [map char_apart].
  rewrite (concept_one _ _ T12 _ _ _ C C'), (period_one _ _ _ _ E4 E4'), (entity_one _ _ _ E5 E5'), (dimensions_one _ _ _ E6 E6'). do 2 f_equal.
  f_equal. unfold units_are in D, D'. destruct (attr x (u "unitRef")) as [[|n r]|]; [subst; reflexivity| |subst; reflexivity].
  destruct D as (c & -> & D), D' as (c' & -> & D'). rewrite (unit_exact_one _ _ _ _ D D'). reflexivity.
Qed.

Lemma fact_concept_to x : CtxReportSpec.given (CtxReportSpec.fact_concept rep1 x) = CtxReportSpec.given (CtxReportSpec.fact_concept rep2 x).
Proof.
  unfold CtxReportSpec.fact_concept, CtxReportSpec.meant. destruct (qname_from_str _ _) as [q|e]; [|reflexivity].
  destruct (get_typed_by_qname is_concept rep1 q) as [a|] eqn:E1, (get_typed_by_qname is_concept rep2 q) as [b|] eqn:E2; try reflexivity; exfalso.
  - apply T12 in E1 as (e' & E1 & _); [|exact concept_by_kind]. congruence.
  - apply T21 in E2 as (e' & E2 & _); [|exact concept_by_kind]. congruence.
Qed.
Lemma has_fact_to i x : CtxReportSpec.has_fact rep1 i x = CtxReportSpec.has_fact rep2 i x.
Proof. unfold CtxReportSpec.has_fact. rewrite fact_concept_to. reflexivity. Qed.
End Facts2.

(** ** Repositories of report elements *)

Definition corresponding (l1 l2 : list element) : Prop := forall e, In e l1 -> exists e', In e' l2 /\ apart e = apart e'.

Lemma registered_elements reg1 reg2 : NoDup (map ConceptModel.r_name reg1) -> NoDup (map ConceptModel.r_name reg2) -> Permutation reg1 reg2 ->
  corresponding (QNameModel.get_all (repository_of (ConceptLoad.stored reg1))) (QNameModel.get_all (repository_of (ConceptLoad.stored reg2))).
Proof.
  intros N1 N2 P e He. rewrite (all_elements reg1 N1) in He. apply in_map_iff in He as (x & <- & Hx). exists (element_of (ConceptLoad.stored reg2) x).
  split; [rewrite (all_elements reg2 N2); apply in_map; eapply Permutation_in; eassumption|reflexivity].
Qed.

Lemma finds reg1 reg2 : NoDup (map ConceptModel.r_name reg1) -> NoDup (map ConceptModel.r_name reg2) ->
  corresponding (QNameModel.get_all (repository_of (ConceptLoad.stored reg1))) (QNameModel.get_all (repository_of (ConceptLoad.stored reg2))) ->
  finds_as (repository_of (ConceptLoad.stored reg1)) (repository_of (ConceptLoad.stored reg2)).
Proof.
  intros N1 N2 H is_t q e Hk He. apply (repo_typed reg1 N1) in He as (A & B & C). destruct (H e A) as (e' & A' & E). exists e'. split; [|exact E].
  apply apart_same in E as (E1 & _ & E3). unfold get_typed_by_qname, get_by_qname.
  rewrite (proj2 (repo_get reg2 N2 q e')) by (split; [exact A'|congruence]). cbn [bind]. rewrite <- (Hk e e' E3), C. reflexivity.
Qed.

Lemma same_name reg q q' e e' t t' : NoDup (map ConceptModel.r_name reg) -> let rep := repository_of (ConceptLoad.stored reg) in
  get_typed_by_qname t rep q = Ok e -> get_typed_by_qname t' rep q' = Ok e' -> e_name e = e_name e' -> e = e'.
Proof.
  intros N rep A B E. apply (repo_typed reg N) in A as (A & A1 & _). apply (repo_typed reg N) in B as (B & B1 & _).
  pose proof (proj2 (repo_get reg N q e) (conj A A1)) as X. assert (Q : e_name e' = q) by congruence. pose proof (proj2 (repo_get reg N q e') (conj B Q)) as Y. congruence.
Qed.
Lemma one_concept_to (trees1 trees2 : list (str * xml)) reg1 reg2 : Permutation trees1 trees2 ->
  NoDup (map ConceptModel.r_name reg1) -> NoDup (map ConceptModel.r_name reg2) ->
  let rep1 := repository_of (ConceptLoad.stored reg1) in let rep2 := repository_of (ConceptLoad.stored reg2) in
  corresponding (QNameModel.get_all rep2) (QNameModel.get_all rep1) ->
  one_concept rep1 (dict_values trees1) -> one_concept rep2 (dict_values trees2).
Proof.
  intros P N1 N2 rep1 rep2 H A3. pose proof (finds reg2 reg1 N2 N1 H) as T. fold rep1 rep2 in T. pose proof (occurs_to _ _ P) as O.
  intros x y tag e e' Hx Hy Ex Ey. pose proof Ex as (_ & q & _ & G). pose proof Ey as (_ & q' & _ & G').
  apply (names_concept_to _ _ T) in Ex as (z & Ex & C). apply (names_concept_to _ _ T) in Ey as (z' & Ey & C').
  rewrite (A3 x y tag z z') in C by (try apply O; assumption). apply apart_same in C as (C & _). apply apart_same in C' as (C' & _).
  eapply (same_name reg2); [exact N2|exact G|exact G'|congruence].
Qed.
Lemma alike_to (trees1 trees2 : list (str * xml)) reg1 reg2 : Permutation trees1 trees2 ->
  NoDup (map ConceptModel.r_name reg1) -> NoDup (map ConceptModel.r_name reg2) ->
  let rep1 := repository_of (ConceptLoad.stored reg1) in let rep2 := repository_of (ConceptLoad.stored reg2) in
  corresponding (QNameModel.get_all rep2) (QNameModel.get_all rep1) ->
  alike rep1 (dict_values trees1) -> alike rep2 (dict_values trees2).
Proof.
  intros P N1 N2 rep1 rep2 H (A1 & A2 & A3 & A4 & A5). pose proof (finds reg2 reg1 N2 N1 H) as T. fold rep1 rep2 in T.
  pose proof (occurs_to _ _ P) as O. split; [|split; [|split; [|split]]].
  - intros x y id s s' Hx Hy. apply (A1 x y); apply O; assumption.
  - intros i j id x y Hi Hj. apply (A2 i j id x y); apply (docs_in _ _ P); assumption.
  - exact (one_concept_to _ _ _ _ P N1 N2 H A3).
  - intros x y dt mt d m d' m' Hx Hy Ex Ey. pose proof Ex as (_ & _ & _ & (q1 & _ & G1) & q2 & _ & G2). pose proof Ey as (_ & _ & _ & (q1' & _ & G1') & q2' & _ & G2').
    apply (writes_explicit_to _ _ T) in Ex as (z & w & Ex & C & D). apply (writes_explicit_to _ _ T) in Ey as (z' & w' & Ey & C' & D').
    destruct (A4 x y dt mt z w z' w') as [-> ->]; try apply O; try assumption.
    apply apart_same in C as (C & _). apply apart_same in C' as (C' & _). apply apart_same in D as (D & _). apply apart_same in D' as (D' & _).
    split; eapply (same_name reg2); [exact N2|exact G1|exact G1'|congruence|exact N2|exact G2|exact G2'|congruence].
  - intros x y dt v d d' Hx Hy Ex Ey. pose proof Ex as (_ & _ & q1 & _ & G1). pose proof Ey as (_ & _ & q1' & _ & G1').
    apply (writes_typed_to _ _ T) in Ex as (z & Ex & C). apply (writes_typed_to _ _ T) in Ey as (z' & Ey & C').
    rewrite (A5 x y dt v z z') in C by (try apply O; assumption). apply apart_same in C as (C & _). apply apart_same in C' as (C' & _).
    eapply (same_name reg2); [exact N2|exact G1|exact G1'|congruence].
Qed.
Lemma plainly_to (trees1 trees2 : list (str * xml)) : Permutation trees1 trees2 -> plainly_written (dict_values trees1) -> plainly_written (dict_values trees2).
Proof. intros P [A B]. pose proof (occurs_to _ _ P) as O. split; [intros x t Hx; apply A, O, Hx|intros x Hx; apply B, O, Hx]. Qed.

(** ** The facts of a repository *)

Lemma fact_as_id C U E P X T i x y : fact_as C U E P X T i x y -> f_id y = attr x (u "id").
Proof. intros (cid & xc & e & us & _ & _ & _ & _ & _ & _ & H & _). exact H. Qed.

Section Stored.
Variable good : xml * xml -> fact -> Prop.
Variable l : list (xml * xml).
Variable os : list (option fact).
Hypothesis good_id : forall ix y, good ix y -> f_id y = attr (snd ix) (u "id").
Hypothesis Hos : Forall2 (fun ix o => match o with Some y => good ix y | None => True end) l os.
Let r := fold_left facts_upsert (somes os) empty_facts.

Lemma stored_in y : In y (facts_get_all r) -> exists ix i, In (ix, Some y) (combine l os) /\ good ix y /\ attr (snd ix) (u "id") = Some i.
Proof.
  intros H. assert (I : exists i, f_id y = Some i).
  { unfold facts_get_all, dict_values in H. apply in_map_iff in H as ([i y'] & <- & H). exists i. apply (folded_own_id (somes os) empty_facts (fun i x (K : In (i, x) []) => match K with end)) in H. exact H. }
  assert (H' : repo_facts r y) by (left; exact H). apply folded_facts in H' as [H'|[[]|[]]].
  assert (G : exists ix, In (ix, Some y) (combine l os) /\ good ix y).
  { clear -Hos H'. induction Hos as [|ix o l os Ho HF IH]; [destruct H'|]. cbn [combine somes flat_map] in *. unfold somes in H'. cbn [flat_map] in H'. apply in_app_or in H' as [H'|H'].
    - destruct o as [z|]; [|destruct H']. destruct H' as [->|[]]. exists ix. split; [left; reflexivity|exact Ho].
    - destruct (IH HF H') as (ix' & A & B). exists ix'. split; [right; exact A|exact B]. }
  destruct G as (ix & A & B), I as (i & I). exists ix, i. split; [exact A|]. split; [exact B|]. rewrite <- (good_id ix y B). exact I.
Qed.
Lemma stored_kept ix i y : (forall a x b y c j, l = a ++ x :: b ++ y :: c -> attr (snd x) (u "id") = Some j -> attr (snd y) (u "id") <> Some j) ->
  In (ix, Some y) (combine l os) -> attr (snd ix) (u "id") = Some i -> In y (facts_get_all r).
Proof.
  intros Hd H Hi. assert (G : forall l os, Forall2 (fun ix o => match o with Some y => good ix y | None => True end) l os -> In (ix, Some y) (combine l os) ->
    exists a b oa ob, l = a ++ ix :: b /\ os = oa ++ Some y :: ob /\ good ix y /\ Forall2 (fun ix o => match o with Some y => good ix y | None => True end) b ob).
  { clear -good. intros l os HF. induction HF as [|jx o l os Ho HF IH]; intros H; [destruct H|]. destruct H as [[= -> ->]|H]; [exists [], l, [], os; auto|].
    destruct (IH H) as (a & b & oa & ob & -> & -> & A & B). exists (jx :: a), b, (o :: oa), ob. auto. }
  destruct (G l os Hos H) as (a & b & oa & ob & El & Eo & Gy & HF). clear G.
  assert (K : kept r y).
  { unfold r. rewrite Eo. unfold somes. rewrite flat_map_app. cbn [flat_map app]. rewrite fold_left_app. cbn [fold_left]. apply kept_rest; [apply kept_new|].
    intros z j Hz Ej. assert (Hz' : exists ix', In ix' b /\ f_id z = attr (snd ix') (u "id")).
    { clear -HF Hz good_id. induction HF as [|jx o b ob Ho HF IH]; [destruct Hz|]. cbn [flat_map] in Hz. apply in_app_or in Hz as [Hz|Hz].
      - destruct o as [z'|]; [|destruct Hz]. destruct Hz as [->|[]]. exists jx. split; [left; reflexivity|apply good_id, Ho].
      - destruct (IH Hz) as (ix' & A & B). exists ix'. split; [right; exact A|exact B]. }
    destruct Hz' as (ix' & Hin & ->). apply in_split in Hin as (b1 & b2 & ->). eapply Hd; [exact El|]. rewrite <- (good_id ix y Gy). exact Ej. }
  eapply kept_get; [exact K|]. rewrite (good_id ix y Gy). exact Hi.
Qed.
Lemma stored_ids : NoDup (map f_id (facts_get_all r)).
Proof.
  assert (N : NoDup (map fst (fr_by_id r))) by (apply facts_keys_nodup).
  assert (O : by_own_id r) by (apply folded_own_id; intros j y []).
  unfold facts_get_all, dict_values. rewrite map_map. unfold by_own_id in O. revert N O. generalize (fr_by_id r). intros d. clear. induction d as [|[i x] d IH]; intros N O; cbn [map]; [constructor|].
  cbn [map fst] in N. inversion N as [|? ? A B]; subst. constructor; [|apply IH; [exact B|intros j y Hy; apply O; right; exact Hy]].
  intros H. apply in_map_iff in H as ([j y] & E & Hy). cbn [snd] in E. rewrite (O i x (or_introl eq_refl)), (O j y (or_intror Hy)) in E. injection E as ->. apply A. apply in_map_iff. exists (i, y). auto.
Qed.
End Stored.

(** The facts of two repositories *)
Lemma has_combine {A B} (R : A -> B -> Prop) l os x : Forall2 R l os -> In x l -> exists o, In (x, o) (combine l os) /\ R x o.
Proof.
  intros H. induction H as [|a b l os Hab _ IH]; intros Hx; [destruct Hx|]. destruct Hx as [->|Hx]; [exists b; split; [left; reflexivity|exact Hab]|].
  destruct (IH Hx) as (o & A1 & A2). exists o. split; [right; exact A1|exact A2].
Qed.
Lemma combine_holds {A B} (R : A -> B -> Prop) l os x o : Forall2 R l os -> In (x, o) (combine l os) -> R x o /\ In x l.
Proof.
  intros H. induction H as [|a b l os Hab _ IH]; intros Hx; [destruct Hx|]. destruct Hx as [[= -> ->]|Hx]; [split; [exact Hab|left; reflexivity]|].
  destruct (IH Hx) as [A1 A2]. split; [exact A1|right; exact A2].
Qed.

Section Same_facts.
Variables l1 l2 : list (xml * xml).
Hypothesis P : Permutation l1 l2.
Variables good1 good2 : xml * xml -> fact -> Prop.
Variables has1 has2 : xml * xml -> bool.
Hypothesis Hhas : forall ix, has1 ix = has2 ix.
Hypothesis id1 : forall ix y, good1 ix y -> f_id y = attr (snd ix) (u "id").
Hypothesis id2 : forall ix y, good2 ix y -> f_id y = attr (snd ix) (u "id").
Hypothesis same : forall ix y y', good1 ix y -> good2 ix y' -> fact_apart y = fact_apart y'.
Definition distinct_ids (l : list (xml * xml)) : Prop :=
  forall a ix b ix' c i, l = a ++ ix :: b ++ ix' :: c -> attr (snd ix) (u "id") = Some i -> attr (snd ix') (u "id") <> Some i.
Hypothesis D2 : distinct_ids l2.
Variables os1 os2 : list (option fact).
Hypothesis F1 : Forall2 (fun ix o => match o with Some y => good1 ix y | None => True end /\ (o <> None <-> has1 ix = true)) l1 os1.
Hypothesis F2 : Forall2 (fun ix o => match o with Some y => good2 ix y | None => True end /\ (o <> None <-> has2 ix = true)) l2 os2.

Lemma first_part (good : xml * xml -> fact -> Prop) has l (os : list (option fact)) :
  Forall2 (fun ix o => match o with Some y => good ix y | None => True end /\ (o <> None <-> has ix = true)) l os ->
  Forall2 (fun ix o => match o with Some y => good ix y | None => True end) l os.
Proof. intros H. induction H as [|ix o l os [H _] _ IH]; constructor; assumption. Qed.

Lemma facts_sub y : In y (facts_get_all (fold_left facts_upsert (somes os1) empty_facts)) ->
  exists y', In y' (facts_get_all (fold_left facts_upsert (somes os2) empty_facts)) /\ fact_apart y = fact_apart y'.
Proof.
  intros H. apply (stored_in good1 l1 os1 id1 (first_part _ _ _ _ F1)) in H as (ix & i & H & G & Hi).
  destruct (combine_holds _ _ _ _ _ F1 H) as [[_ K] Hin]. assert (E : has1 ix = true) by (apply K; discriminate).
  assert (Hin2 : In ix l2) by (eapply Permutation_in; eassumption).
  destruct (has_combine _ _ _ _ F2 Hin2) as (o & Ho & [G2 K2]). destruct o as [y'|]; [|exfalso; rewrite Hhas in E; apply K2 in E; apply E; reflexivity].
  exists y'. split; [|exact (same ix y y' G G2)]. eapply (stored_kept good2 l2 os2 id2 (first_part _ _ _ _ F2)); eassumption.
Qed.
End Same_facts.

Lemma facts_perm l1 l2 rep1 rep2 (good1 good2 : xml * xml -> fact -> Prop) os1 os2 : Permutation l1 l2 ->
  finds_as rep1 rep2 -> finds_as rep2 rep1 ->
  (forall ix y, good1 ix y -> f_id y = attr (snd ix) (u "id")) -> (forall ix y, good2 ix y -> f_id y = attr (snd ix) (u "id")) ->
  (forall ix y y', good1 ix y -> good2 ix y' -> fact_apart y = fact_apart y') -> distinct_ids l1 -> distinct_ids l2 ->
  Forall2 (fun ix o => match o with Some y => good1 ix y | None => True end /\ (o <> None <-> CtxReportSpec.has_fact rep1 (fst ix) (snd ix) = true)) l1 os1 ->
  Forall2 (fun ix o => match o with Some y => good2 ix y | None => True end /\ (o <> None <-> CtxReportSpec.has_fact rep2 (fst ix) (snd ix) = true)) l2 os2 ->
  Permutation (map fact_apart (facts_get_all (fold_left facts_upsert (somes os1) empty_facts)))
    (map fact_apart (facts_get_all (fold_left facts_upsert (somes os2) empty_facts))).
Proof.
  intros P T12 T21 I1 I2 S D1 D2 F1 F2.
  assert (N : forall os, NoDup (map fact_apart (facts_get_all (fold_left facts_upsert (somes os) empty_facts)))).
  { intros os. apply NoDup_map_inv with (f := f_id). rewrite map_map. apply stored_ids. }
  apply NoDup_Permutation; [apply N|apply N|]. intros a. rewrite !in_map_iff. split; intros (y & <- & Hy).
  - eapply facts_sub with (l2 := l2) (good2 := good2) in Hy as (y' & Hy' & E); [exists y'; split; [symmetry; exact E|exact Hy']|exact P| |exact I1|exact I2|exact S|exact D2|exact F1|exact F2].
    intros ix. apply has_fact_to; assumption.
  - eapply facts_sub with (l2 := l1) (good2 := good1) in Hy as (y' & Hy' & E); [exists y'; split; [symmetry; exact E|exact Hy']|exact (Permutation_sym P)| |exact I2|exact I1| |exact D1|exact F2|exact F1].
    + intros ix. apply has_fact_to; assumption.
    + intros ix z z' H H'. symmetry. exact (S ix z' z H' H).
Qed.

(** ** Reading to the end *)

Section Opens.
Variable parse_date : str -> res date.
Variables rep1 rep2 : repository.
Hypothesis T12 : finds_as rep1 rep2.
Hypothesis T21 : finds_as rep2 rep1.
Lemma meant_to is_t sc t : by_kind is_t -> CtxReportSpec.given (CtxReportSpec.meant rep1 is_t sc t) = CtxReportSpec.given (CtxReportSpec.meant rep2 is_t sc t).
Proof.
  intros K. unfold CtxReportSpec.meant. destruct (qname_from_str _ _) as [q|e]; [|reflexivity].
  destruct (get_typed_by_qname is_t rep1 q) as [a|] eqn:E1, (get_typed_by_qname is_t rep2 q) as [b|] eqn:E2; try reflexivity; exfalso.
  - apply T12 in E1 as (e' & E1 & _); [|exact K]. congruence.
  - apply T21 in E2 as (e' & E2 & _); [|exact K]. congruence.
Qed.
Lemma dimension_ok_to x : CtxReportSpec.dimension_ok rep1 x = CtxReportSpec.dimension_ok rep2 x.
Proof.
  unfold CtxReportSpec.dimension_ok, CtxReportSpec.typed_ok. destruct (CtxReportSpec.tag_says _ _); [reflexivity|]. destruct (CtxReportSpec.tag_says _ _); [|reflexivity].
  destruct (attr _ _); [|reflexivity]. apply meant_to, dimension_by_kind.
Qed.
Lemma body_ok_to i x : CtxReportSpec.body_ok parse_date rep1 i x = CtxReportSpec.body_ok parse_date rep2 i x.
Proof.
  unfold CtxReportSpec.body_ok, CtxReportSpec.context_ok. destruct (attr _ _); [|reflexivity]. destruct (find_by_id _ _ _) as [xc|]; [|reflexivity].
  destruct (find_kid (u "period") xc); [|reflexivity]. destruct (find_kid (u "entity") xc) as [e|]; [|reflexivity]. f_equal. destruct (find_kid _ e) as [seg|]; [|reflexivity].
  induction (x_kids seg) as [|k l IH]; [reflexivity|]. cbn [forallb]. rewrite dimension_ok_to, IH. reflexivity.
Qed.
Lemma fact_ok_to i x : CtxReportSpec.fact_ok parse_date rep1 i x = CtxReportSpec.fact_ok parse_date rep2 i x.
Proof.
  unfold CtxReportSpec.fact_ok. pose proof (fact_concept_to _ _ T12 T21 x) as E.
  destruct (CtxReportSpec.fact_concept rep1 x), (CtxReportSpec.fact_concept rep2 x); try discriminate E; [|reflexivity].
  destruct (CtxReportSpec.unit_ref i x); try reflexivity; rewrite body_ok_to; reflexivity.
Qed.
End Opens.

Lemma points_to l1 l2 (P1 P2 : str -> Prop) i o : corresponding l1 l2 -> corresponding l2 l1 -> NoDup (map e_name l1) -> NoDup (map e_name l2) ->
  (forall e e' i, In e l1 -> In e' l1 -> e_id e = Some i -> e_id e' = Some i -> e = e') -> (P1 i <-> P2 i) -> points l1 P1 i o -> points l2 P2 i o.
Proof.
  intros C12 C21 N1 N2 I1 HP [e n A B|e n A B|n A B|A B].
  - destruct (last_id_some l1 l2 C12 C21 N1 N2 I1 i e A) as (e' & _ & E & L). apply apart_same in E as (_ & _ & E). eapply at_concept; [exact L|congruence].
  - destruct (last_id_some l1 l2 C12 C21 N1 N2 I1 i e A) as (e' & _ & E & L). apply apart_same in E as (_ & _ & E). eapply at_element; [exact L|congruence].
  - apply at_fact; [exact (no_id_to l1 l2 C21 i A)|tauto].
  - apply at_nothing; [exact (no_id_to l1 l2 C21 i A)|tauto].
Qed.

Lemma turns_chain find link outside : LinkReadSpec.turns find link outside -> ~ LinkSpec.no_cycle link outside.
Proof.
  intros (s & _ & H) N. apply (N s). assert (G : forall t, LinkReadSpec.leads_on find link outside s t -> LinkSpec.chain link outside s t); [|exact (G s H)].
  intros t L. induction L as [arc aa t A B C _|arc aa t v _ IH A B C _]; [eapply LinkSpec.chain_one|eapply LinkSpec.chain_more]; eassumption.
Qed.

Lemma kinds_perm {A B C} (D D' : A -> B -> Prop) (k : B -> C) l l' c c' : Permutation l l' -> Forall2 D l c -> Forall2 D' l' c' ->
  (forall x y y', D x y -> D' x y' -> k y = k y') -> Permutation (map k c) (map k c').
Proof.
  intros P F F' H. destruct (Permutation_Forall2 P F) as (m & Pm & Fm). eapply Permutation_trans; [apply Permutation_map, Pm|].
  replace (map k m) with (map k c'); [reflexivity|]. clear -Fm F' H. revert c' F'. induction Fm as [|x y l m Hxy _ IH]; intros c' F'; inversion F' as [|? y' ? c2 Hy' F2]; subst; [reflexivity|].
  cbn [map]. rewrite (H x y y' Hxy Hy'). f_equal. apply IH, F2.
Qed.
Lemma first_such_one {A} (P : A -> Prop) l r r' : CompSpec.first_such P l r -> CompSpec.first_such P l r' -> r = r'.
Proof.
  unfold CompSpec.first_such. destruct r as [a|], r' as [a'|]; [| | |reflexivity].
  - intros (l1 & l2 & E & H & F) (l1' & l2' & E' & H' & F'). rewrite Forall_forall in F, F'.
    destruct (FilingStages.split_two _ _ _ _ _ _ _ E E') as [[_ ->]|[K|K]]; [reflexivity| |]; exfalso; [exact (F _ K H')|exact (F' _ K H)].
  - intros (l1 & l2 & -> & H & _) F. rewrite Forall_forall in F. destruct (F a (in_elt _ _ _) H).
  - intros F (l1 & l2 & -> & H & _). rewrite Forall_forall in F. destruct (F a' (in_elt _ _ _) H).
Qed.
