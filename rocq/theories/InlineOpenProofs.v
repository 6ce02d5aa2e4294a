(** Proofs about which inline documents can be read to their end (C105). *)
From Verif Require Import Base Regex PyNum NumModel DateModel QNameModel QNameProofs ErrBase ErrTable ErrModel
  CtxModel CtxSpec CtxProofs CtxParseProofs CtxReportSpec InlineModel InlineSpec InlineProofs InlineStepProofs
  InlineReportSpec InlineReportProofs InlineHeadSpec InlineHeadProofs InlineDocProofs.
From Verif Require CtxReportProofs CtxOpenProofs.

Local Opaque u.

Definition runs {A} (m : M A) (s : state) : Prop := exists r, m s = Ok r.
Lemma runs_bind {A B} (m : M A) (f : A -> M B) s : runs (mbind m f) s <-> exists a s', m s = Ok (a, s') /\ runs (f a) s'.
Proof.
  unfold runs, mbind. split.
  - intros (r & E). destruct (m s) as [[a s']|]; [|discriminate]. eauto.
  - intros (a & s' & -> & r & E). eauto.
Qed.
Lemma runs_stage {A B} (m : M A) (f : A -> M B) s (P Q : Prop) : (P -> runs m s) -> (runs m s -> P) ->
  (forall a s', m s = Ok (a, s') -> (runs (f a) s' <-> Q)) -> (runs (mbind m f) s <-> P /\ Q).
Proof.
  intros H1 H2 H3. rewrite runs_bind. split.
  - intros (a & s' & E & R). split; [apply H2; exists (a, s'); exact E|apply (H3 _ _ E), R].
  - intros [HP HQ]. destruct (H1 HP) as ([a s'] & E). exists a, s'. split; [exact E|apply (H3 _ _ E), HQ].
Qed.
Lemma runs_cases {A B} (m : M A) (f : A -> M B) a ps s (fatal Q : Prop) : fatal /\ raises m \/ ~ fatal /\ does m a ps ->
  (forall es, m s = Ok (a, with_errors s es) -> (runs (f a) (with_errors s es) <-> Q)) -> (runs (mbind m f) s <-> ~ fatal /\ Q).
Proof.
  intros H HQ. apply runs_stage.
  - intros N. destruct H as [[F _]|[_ D]]; [contradiction|]. destruct (D s) as (es & E & _). exists (a, with_errors s es). exact E.
  - intros (r & E). destruct H as [[_ R]|[N _]]; [|exact N]. destruct (R s) as (e & E'). congruence.
  - intros b s' E. destruct H as [[_ R]|[_ D]]; [destruct (R s) as (e & E'); congruence|].
    destruct (D s) as (es & E' & _). rewrite E' in E. injection E as <- <-. apply HQ, E'.
Qed.
Lemma runs_free {A B} (m : M A) (f : A -> M B) s (Q : Prop) : runs m s ->
  (forall a s', m s = Ok (a, s') -> (runs (f a) s' <-> Q)) -> (runs (mbind m f) s <-> Q).
Proof. intros H HQ. rewrite (runs_stage m f s True Q); [tauto|auto|auto|exact HQ]. Qed.
Lemma report_runs code x kw s : runs (report code x kw) s <-> exists e, create code (Some x) kw = Ok e.
Proof.
  unfold runs, report, insert. destruct (create code (Some x) kw); cbn [bind]; [split; eauto|].
  split; intros (r & E); discriminate E.
Qed.

Ltac created := repeat match goal with |- context [@pair str str _ ?v] => tryif is_var v then fail else (generalize v; intro) end; eexists; vm_compute; reflexivity.
Lemma taken_runs x taken i s : runs (check_taken x taken i) s.
Proof. unfold check_taken, when. destruct (mem i taken); [apply report_runs; created|exists (tt, s); reflexivity]. Qed.

Section Opens.
Variable parse_date : str -> res date.
Variable rep : repository.
Variable docs : list xml.
Notation J := (inv parse_date rep docs).

Definition context_good (x : xml) : Prop := attr x (u "id") <> None /\ context_ok parse_date rep x = true.
Definition unit_good (x : xml) : Prop := attr x (u "id") <> None /\ unit_ok x = true.

Lemma no_id {A} (f : str -> M A) x s : attr x (u "id") = None -> ~ runs (let! i := lift (get_str_attribute x (u "id")) in f i) s.
Proof. intros E (r & H). unfold mbind, lift, get_str_attribute in H. rewrite E in H. discriminate H. Qed.

Lemma context_runs x s : occurs docs x -> plain_dimensions docs -> J s -> (runs (parse_context parse_date rep x []) s <-> context_good x).
Proof.
  intros Hx Hp Hj. unfold context_good. destruct (attr x (u "id")) as [id|] eqn:E.
  2:{ split; [|intros [H _]; congruence]. intros H. exfalso. revert H. apply no_id, E. }
  pose proof (CtxOpenProofs.opens_context parse_date rep docs x [] id E Hx Hp s Hj) as O.
  destruct (context_ok parse_date rep x); split.
  - intros _. split; [discriminate|reflexivity].
  - intros _. destruct O as (a & s' & O). eexists. exact O.
  - intros (r & R). destruct O as (e & O). congruence.
  - intros [_ H]. discriminate H.
Qed.

Lemma contexts_run l : (forall x, In x l -> occurs docs x) -> plain_dimensions docs -> forall taken cs s, J s ->
  (runs (parse_contexts parse_date rep l taken cs) s <-> Forall context_good l).
Proof.
  intros Hl Hp. induction l as [|x l IH]; intros taken cs s Hj; cbn [parse_contexts].
  { split; [constructor|intros _; eexists; reflexivity]. }
  specialize (IH (fun y H => Hl y (or_intror H))). specialize (Hl x (or_introl eq_refl)).
  assert (S : forall s, J s -> (runs (let! c := parse_context parse_date rep x [] in
     match c with
     | None => parse_contexts parse_date rep l (str_opt (attr x (u "id")) :: taken) cs
     | Some c =>
          let '(cs, added) := insert_context cs c in
          let! _ := when (negb added) (report "IXBRL_DUPLICATE_ELEMENT_ID" x [(u "id", str_opt (attr x (u "id")))]) in
          parse_contexts parse_date rep l (str_opt (attr x (u "id")) :: taken) cs
      end) s <-> context_good x /\ Forall context_good l)).
  { clear s Hj. intros s Hj. apply runs_stage; [apply context_runs; assumption|apply context_runs; assumption|].
    intros c s1 E. assert (Hj1 : J s1) by (apply (parse_context_spec parse_date rep docs x [] Hl s c s1 Hj E)).
    destruct c as [c|]; [|apply IH, Hj1]. destruct (insert_context cs c) as [cs1 added].
    apply runs_free.
    - unfold when. destruct (negb added); [apply report_runs; created|exists (tt, s1); reflexivity].
    - intros [] s2 E2. apply IH. apply (J_when parse_date rep docs (negb added) _ (J_report parse_date rep docs _ _ _) s1 tt s2 Hj1 E2). }
  rewrite Forall_cons_iff. apply runs_free.
  { unfold when. destruct (negb _); [apply report_runs; created|exists (tt, s); reflexivity]. }
  intros [] s1 E1. assert (Hj1 := J_when parse_date rep docs _ _ (J_report parse_date rep docs _ _ _) s tt s1 Hj E1). apply runs_free; [apply taken_runs|].
  intros [] s2 E2. apply S. apply (J_when parse_date rep docs _ _ (J_report parse_date rep docs _ _ _) s1 tt s2 Hj1 E2).
Qed.

Lemma unit_runs x s : J s -> (runs (parse_unit x) s <-> unit_good x).
Proof.
  intros Hj. unfold unit_good. destruct (attr x (u "id")) as [id|] eqn:E.
  2:{ split; [|intros [H _]; congruence]. intros H. exfalso. revert H. apply no_id, E. }
  assert (G : forall s, J s -> (runs (CtxReportProofs.unit_body x id) s <-> Some id <> None /\ unit_ok x = true)).
  { clear s Hj. intros s Hj. pose proof (CtxOpenProofs.opens_unit_body parse_date rep docs x id s Hj) as O.
    destruct (unit_ok x); split.
    - intros _. split; [discriminate|reflexivity].
    - intros _. destruct O as (a & s' & O). eexists. exact O.
    - intros (r & R). destruct O as (e & O). congruence.
    - intros [_ H]. discriminate H. }
  destruct (CtxReportProofs.known s id) eqn:Ek.
  - assert (E0 : parse_unit x s = (let! _ := report "IXBRL_DUPLICATE_ELEMENT_ID" x [(u "id", id)] in CtxReportProofs.unit_body x id) s).
    { unfold parse_unit. unfold mbind at 1. unfold lift, get_str_attribute. rewrite E.
      unfold mbind at 1. unfold char_has at 1. change (dict_mem char_key_eqb (s_chars s) (id, ClsUnit)) with (CtxReportProofs.known s id). rewrite Ek. reflexivity. }
    unfold runs at 1. rewrite E0. apply (runs_free _ _ s); [apply report_runs; created|]. intros [] s1 E1. apply G. exact (J_report parse_date rep docs _ _ _ s tt s1 Hj E1).
  - unfold runs at 1. rewrite (CtxReportProofs.parse_unit_body x id s E Ek). apply G, Hj.
Qed.
Lemma units_cons x l t : forall s, parse_units (x :: l) t s = (let! t' := parse_units [x] t in parse_units l t') s.
Proof.
  intros s. cbn [parse_units]. unfold mbind. destruct (when _ _ s) as [[[] s1]|]; [|reflexivity].
  match goal with |- match ?m with _ => _ end = _ => destruct m as [[[] s2]|]; [|reflexivity] end.
  destruct (parse_unit x s2) as [[[c|] s3]|]; [|reflexivity|reflexivity]. unfold char_upsert. reflexivity.
Qed.
Lemma units_run l : (forall x, In x l -> In (alone x) docs) -> forall taken s, J s -> (runs (parse_units l taken) s <-> Forall unit_good l).
Proof.
  intros Hl. induction l as [|x l IH]; intros taken s Hj.
  { split; [constructor|intros _; eexists; reflexivity]. }
  specialize (IH (fun y H => Hl y (or_intror H))). rewrite Forall_cons_iff. unfold runs at 1. rewrite units_cons.
  assert (S : runs (parse_units [x] taken) s <-> unit_good x).
  { cbn [parse_units]. apply runs_free.
    { unfold when. destruct (negb _); [apply report_runs; created|exists (tt, s); reflexivity]. }
    intros [] s1 E1. assert (Hj1 := J_when parse_date rep docs _ _ (J_report parse_date rep docs _ _ _) s tt s1 Hj E1). apply runs_free.
    { destruct (attr x (u "id")); [apply taken_runs|eexists; reflexivity]. }
    intros [] s2 E2. assert (Hj2 : J s2).
    { destruct (attr x (u "id")); [exact (J_when parse_date rep docs _ _ (J_report parse_date rep docs _ _ _) s1 tt s2 Hj1 E2)|injection E2 as <-; exact Hj1]. }
    rewrite runs_bind. rewrite <- (unit_runs x s2 Hj2). split; [intros (a & s' & E & _); eexists; exact E|]. intros ([a s'] & E). exists a, s'. split; [exact E|].
    apply runs_bind. exists tt. destruct a as [c|]; eexists; (split; [reflexivity|]); eexists; reflexivity. }
  apply (runs_stage (parse_units [x] taken) _ s); [apply S|apply S|]. intros t s' E. apply IH.
  destruct (parse_units_sem parse_date rep docs [x] (fun y H => Hl y (match H with or_introl e => or_introl e | or_intror f => match f with end end)) taken s t s' Hj E) as (os & _ & H & _). exact H.
Qed.
End Opens.

(** ** Facts *)
Section Elements.
Variable rep : repository.
Variable py_float : str -> option bool.
Variable era_valid : list (part * str) -> res bool.
Variable units_at : str -> option characteristic.
Hypothesis units_class : forall i c, units_at i = Some c -> class_of c = ClsUnit.
Variable cs : contexts.
Let J (s : state) : Prop := forall i, dict_get char_key_eqb (s_chars s) (i, ClsUnit) = units_at i.

Lemma fact_context_runs n tag s : J s -> runs (fact_context rep cs (n_el n) tag) s.
Proof.
  intros Hj. unfold fact_context. set (x := n_el n).
  assert (R : forall A code kw (a : A) s, (exists e, create code (Some x) kw = Ok e) -> runs (let! _ := report code x kw in ret a) s).
  { intros A code kw a s0 H. apply runs_bind. destruct (proj2 (report_runs code x kw s0) H) as ([[] s1] & E). exists tt, s1. split; [exact E|eexists; reflexivity]. }
  destruct (attr x (u "name")) as [name|]; [|apply R; created].
  destruct (qname_total name (x_scope x)) as [q Eq]. apply runs_bind. unfold lift. rewrite Eq. do 2 eexists. split; [reflexivity|].
  destruct (get_typed_by_qname is_concept rep q) as [e|]; [|apply R; created].
  apply runs_bind. do 2 eexists. split; [reflexivity|]. set (s1 := State _ _ _ _).
  assert (Hj1 : J s1).
  { intros i. unfold s1. cbn [s_chars]. rewrite (dict_get_set_other _ char_key_eqb_spec); [apply Hj|]. cbn [class_of]. discriminate. }
  clearbody s1. apply runs_bind.
  assert (U : runs (find_units x tag) s1).
  { unfold find_units.
    assert (U0 : runs (let! _ := when (str_eqb tag (u "ix:nonFraction")) (report "IXBRL_NON_FRACTION_WITHOUT_UNIT" x [(u "fact_id", str_opt (attr x (u "id")))]) in ret (@nil characteristic)) s1).
    { unfold when. destruct (str_eqb _ _); [apply R; created|eexists; reflexivity]. }
    destruct (attr x (u "unitRef")) as [[|c0 id]|]; [exact U0| |exact U0]. clear U0. unfold runs, char_get. rewrite (Hj1 (c0 :: id)).
    destruct (units_at (c0 :: id)) as [c|] eqn:E; [rewrite (units_class _ _ E); eexists; reflexivity|]. apply R. created. }
  destruct U as ([us s2] & U). exists us, s2. split; [exact U|].
  destruct (attr x (u "contextRef")) as [cid|]; [|apply R; created].
  destruct (dict_get str_eqb cs cid) as [c|]; [eexists; reflexivity|apply R; created].
Qed.

Lemma facts_run l : (forall n, In n l -> conventional n) -> (forall n, In n l -> ~ element_fatal rep era_valid cs n) ->
  forall last taken fr s, J s -> runs (parse_facts rep py_float era_valid cs l last taken fr) s.
Proof.
  induction l as [|n l IH]; intros Hc Hf last taken fr s Hj; cbn [parse_facts]; [eexists; reflexivity|].
  assert (IH' := IH (fun m H => Hc m (or_intror H)) (fun m H => Hf m (or_intror H))). clear IH.
  specialize (Hc n (or_introl eq_refl)). specialize (Hf n (or_introl eq_refl)).
  assert (Ht : exists tag, tag_name (n_el n) = Ok tag) by (destruct Hc as [H|H]; eauto). destruct Ht as [tag Ht].
  apply runs_bind. unfold lift. rewrite Ht. do 2 eexists. split; [reflexivity|].
  apply runs_bind. destruct (fact_context_runs n tag s Hj) as ([c s1] & E). exists c, s1. split; [exact E|].
  destruct (fact_context_made rep units_at units_class cs n tag Ht s c s1 Hj E) as (Hj1 & es & _ & _ & Hb).
  destruct c as [c|]; [|apply IH'; exact Hj1]. cbn [given] in Hb. symmetry in Hb.
  apply runs_bind.
  assert (S : exists f es, (if str_eqb tag (u "ix:nonNumeric") then let! p := parse_non_numeric era_valid n c taken in ret (Some p)
      else if str_eqb tag (u "ix:nonFraction") then let! p := parse_non_fraction py_float n c taken in ret (Some p) else ret None) s1 =
      Ok (Some (f, take (n_el n) taken), with_errors s1 es)).
  { destruct Hc as [H|H]; rewrite H in Ht; injection Ht as <-.
    - rewrite str_eqb_refl. destruct (text_cases era_valid n c taken) as [[F _]|[_ (f & D)]].
      { exfalso. apply Hf. split; [exact Hb|]. right. auto. }
      destruct (D s1) as (es' & E' & _). exists f, es'. unfold mbind. rewrite E'. reflexivity.
    - destruct (str_eqb_spec (u "ix:nonFraction") (u "ix:nonNumeric")) as [D|_]; [discriminate D|]. rewrite str_eqb_refl.
      destruct (number_cases py_float n c taken) as [[F _]|[_ D]].
      { exfalso. apply Hf. split; [exact Hb|]. left. auto. }
      destruct (D s1) as (es' & E' & _). eexists. exists es'. unfold mbind. rewrite E'. reflexivity. }
  destruct S as (f & es' & S). do 2 eexists. split; [exact S|]. cbv iota. apply IH'. intros i. apply (Hj1 i).
Qed.
End Elements.
