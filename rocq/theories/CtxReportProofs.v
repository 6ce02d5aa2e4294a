(** Proofs about what is reported about the fact elements of XML instances (C97). *)
From Verif Require Import Base Regex PyNum QNameModel QNameProofs ErrBase ErrModel CtxModel CtxSpec CtxProofs CtxParseProofs
  CtxExactProofs CtxReportSpec.

Local Opaque insert u.

Definition known (s : state) (id : str) : bool := dict_mem char_key_eqb (s_chars s) (id, ClsUnit).

(** No unit becomes known and no fact is added. *)
Definition same (s s' : state) : Prop := (forall id, known s' id = known s id) /\ s_facts s' = s_facts s.
Lemma same_refl s : same s s.
Proof. split; reflexivity. Qed.
Lemma same_trans s s1 s2 : same s s1 -> same s1 s2 -> same s s2.
Proof. intros [A B] [A' B']. split; [intros id; rewrite A'; apply A|congruence]. Qed.

(** From states with [I], what [m] reports has [Q]. *)
Definition says (I : state -> Prop) {A} (m : M A) (Q : A -> list notice -> Prop) : Prop :=
  forall s a s', I s -> m s = Ok (a, s') -> same s s' /\
    exists rs es, s_errors s' = s_errors s ++ es /\ Forall2 made rs es /\ Q a rs.
Definition keeps (I : state -> Prop) {A} (m : M A) : Prop := forall s a s', I s -> m s = Ok (a, s') -> I s'.

Section Says.
Variable I : state -> Prop.

Lemma says_ret {A} (a : A) (Q : A -> list notice -> Prop) : Q a [] -> says I (ret a) Q.
Proof. intros H s b s' _ [= <- <-]. split; [apply same_refl|]. exists [], []. rewrite app_nil_r. auto. Qed.

Lemma says_bind {A B} (m : M A) (f : A -> M B) P Q :
  keeps I m -> says I m P -> (forall a rs, P a rs -> says I (f a) (fun b rs' => Q b (rs ++ rs'))) -> says I (mbind m f) Q.
Proof.
  intros Hk Hm Hf s b s' Hi. unfold mbind. destruct (m s) as [[a s1]|] eqn:E; [|discriminate]. intros E'.
  destruct (Hm _ _ _ Hi E) as (K1 & rs & es & Es & Hr & HP).
  destruct (Hf a rs HP _ _ _ (Hk _ _ _ Hi E) E') as (K2 & rs' & es' & Es' & Hr' & HQ).
  split; [eapply same_trans; eassumption|]. exists (rs ++ rs'), (es ++ es').
  rewrite Es', Es, app_assoc. split; [reflexivity|]. split; [apply Forall2_app; assumption|exact HQ].
Qed.

Lemma says_conseq {A} (m : M A) (P Q : A -> list notice -> Prop) :
  says I m P -> (forall a rs, P a rs -> Q a rs) -> says I m Q.
Proof. intros H HPQ s a s' Hi E. destruct (H s a s' Hi E) as (K & rs & es & H1 & H2 & H3). split; [exact K|]. exists rs, es. auto. Qed.

Lemma says_lift_then {A B} (r : res A) (f : A -> M B) Q :
  (forall a, r = Ok a -> says I (f a) Q) -> says I (let! x := lift r in f x) Q.
Proof.
  intros H s b s' Hi. unfold mbind, lift. destruct r as [a|]; [|discriminate]. apply (H a eq_refl s b s' Hi).
Qed.

Lemma says_fail {A} e Q : says I (@fail A e) Q.
Proof. intros s a s' _ H. discriminate H. Qed.

Lemma says_report code x kw (Q : unit -> list notice -> Prop) : Q tt [Report code x kw] -> says I (report code x kw) Q.
Proof.
  intros H s a s' _. unfold report. Local Transparent insert. unfold insert. Local Opaque insert.
  destruct (create code (Some x) kw) as [e|] eqn:E; [|discriminate]. cbn [bind].
  intros [= <- <-]. split; [split; reflexivity|]. exists [Report code x kw], [e]. split; [reflexivity|].
  split; [constructor; [exact E|constructor]|exact H].
Qed.

Lemma says_report_ret {A} code x kw (a : A) (Q : A -> list notice -> Prop) :
  Q a [Report code x kw] -> says I (let! _ := report code x kw in ret a) Q.
Proof.
  intros H s b s' Hi. unfold mbind. destruct (report code x kw s) as [[[] s1]|] eqn:E; [|discriminate].
  intros [= <- <-]. apply (says_report code x kw (fun _ rs => Q a rs) H s tt s1 Hi E).
Qed.

(** Looking at the state changes nothing. *)
Definition looks {A} (m : M A) : Prop := forall s a s', m s = Ok (a, s') -> s' = s.
Lemma says_look {A B} (m : M A) (f : A -> M B) Q : looks m ->
  (forall a, says I (f a) Q) -> says I (mbind m f) Q.
Proof.
  intros Hl Hf s b s' Hi. unfold mbind. destruct (m s) as [[a s1]|] eqn:E; [|discriminate].
  apply Hl in E as ->. apply Hf, Hi.
Qed.
(** Steps that report nothing. *)
Definition silent (m : M unit) : Prop :=
  forall s a s', I s -> m s = Ok (a, s') -> I s' /\ s_errors s' = s_errors s /\ same s s'.
Lemma says_silent {B} (m : M unit) (f : M B) Q : silent m -> says I f Q -> says I (let! _ := m in f) Q.
Proof.
  intros Hm Hf s b s' Hi. unfold mbind. destruct (m s) as [[[] s1]|] eqn:E; [|discriminate].
  destruct (Hm _ _ _ Hi E) as (Hi1 & Es & K). intros E'.
  destruct (Hf _ _ _ Hi1 E') as (K' & rs & es & H). split; [eapply same_trans; eassumption|].
  exists rs, es. rewrite <- Es. exact H.
Qed.
Lemma silent_ret : silent (ret tt).
Proof. intros s a s' Hi [= <- <-]. split; [exact Hi|]. split; [reflexivity|apply same_refl]. Qed.
End Says.

Lemma keeps_true {A} (m : M A) : keeps (fun _ => True) m.
Proof. intros s a s' _ _. exact Logic.I. Qed.

Lemma looks_has i k : looks (char_has i k).
Proof. intros s a s' [= <- <-]. reflexivity. Qed.
Lemma looks_get i k : looks (char_get i k).
Proof.
  intros s a s'. unfold char_get. destruct (dict_get _ _ _); [|discriminate]. destruct (cls_eqb _ _); [|discriminate].
  intros [= <- <-]. reflexivity.
Qed.
Lemma looks_aspect_has n : looks (aspect_has n).
Proof. intros s a s' [= <- <-]. reflexivity. Qed.
Lemma looks_aspect_get n : looks (aspect_get n).
Proof. intros s a s'. unfold aspect_get. destruct (dict_get _ _ _); [|discriminate]. intros [= <- <-]. reflexivity. Qed.

Lemma dict_mem_set {K V} (eqb : K -> K -> bool) (spec : forall a b, reflect (a = b) (eqb a b)) (d : list (K * V)) k v k' :
  dict_mem eqb (dict_set eqb d k v) k' = eqb k k' || dict_mem eqb d k'.
Proof.
  unfold dict_mem. destruct (spec k k') as [<-|Hn].
  - rewrite (dict_get_set_same _ spec). reflexivity.
  - rewrite (dict_get_set_other _ spec) by exact Hn. reflexivity.
Qed.

Notation free := (fun _ : state => True).

Lemma says_free I {A} (m : M A) Q : says free m Q -> says I m Q.
Proof. intros H s a s' _. apply H. exact Logic.I. Qed.

Lemma says_has (I : state -> Prop) (P : Prop) {B} i k (f : bool -> M B) Q :
  (forall s, I s -> dict_mem char_key_eqb (s_chars s) (i, k) = true -> P) ->
  (P -> says free (f true) Q) -> says free (f false) Q -> says I (let! b := char_has i k in f b) Q.
Proof.
  intros HP H1 H2 s a s' Hi. unfold mbind, char_has. destruct (dict_mem char_key_eqb (s_chars s) (i, k)) eqn:E.
  - apply (H1 (HP s Hi E)). exact Logic.I.
  - apply H2. exact Logic.I.
Qed.

Lemma silent_upsert i c : class_of c <> ClsUnit -> silent free (char_upsert i c).
Proof.
  intros Hc s a s' _ [= <- <-]. split; [exact Logic.I|]. split; [reflexivity|]. split; [|reflexivity]. intros id. unfold known. cbn [s_chars].
  rewrite (dict_mem_set _ char_key_eqb_spec). destruct (char_key_eqb_spec (i, class_of c) (id, ClsUnit)) as [E|_]; [congruence|reflexivity].
Qed.
Lemma silent_aspect n : silent free (aspect_upsert n).
Proof. intros s a s' _ [= <- <-]. split; [exact Logic.I|]. split; [reflexivity|]. split; reflexivity. Qed.
Lemma silent_unless (b : bool) (m : M unit) I : silent I m -> silent I (if b then ret tt else m).
Proof. intros H. destruct b; [apply silent_ret|exact H]. Qed.

Lemma tag_contains_says t x b : tag_contains (u t) x = Ok b -> b = tag_says t x.
Proof. unfold tag_contains, tag_says. destruct (x_tag x); [|discriminate]. congruence. Qed.

Section Parse.
Variable parse_date : str -> res date.
Variable rep : repository.
Variable nillable : element -> bool.

Lemma meant_has is_t sc t q : qname_from_str t sc = Ok q -> given (meant rep is_t sc t) = has_typed_qname is_t rep q.
Proof. intros E. unfold meant, has_typed_qname. rewrite E. destruct (get_typed_by_qname is_t rep q); reflexivity. Qed.
Lemma local_eq sc t q : qname_from_str t sc = Ok q -> local_of sc t = q_local q.
Proof. intros E. unfold local_of. rewrite E. reflexivity. Qed.

Lemma says_entity x : says free (parse_entity x) (fun _ rs => rs = entity_reports x).
Proof.
  unfold parse_entity, entity_reports. destruct (find_kid (u "identifier") x) as [i|]; [|apply says_report_ret; reflexivity].
  destruct (attr i (u "scheme")) as [sch|]; [|apply says_report_ret; reflexivity]. cbn [given report_unless].
  destruct (x_text i) as [id|]; [|apply says_ret; reflexivity].
  apply says_look; [apply looks_has|]. intros [|].
  - apply says_look; [apply looks_get|]. intros c. apply says_ret. reflexivity.
  - apply says_silent; [apply silent_upsert; discriminate|]. apply says_ret. reflexivity.
Qed.

Lemma get_attr x a v : get_str_attribute x a = Ok v -> attr x a = Some v.
Proof. unfold get_str_attribute. destruct (attr x a); congruence. Qed.

Lemma says_explicit x dt : attr x (u "dimension") = Some dt ->
  says free (parse_explicit rep x) (fun _ rs => rs = explicit_reports rep x dt).
Proof.
  intros Ha. unfold parse_explicit, explicit_reports. apply says_lift_then. intros dt' Ed.
  apply get_attr in Ed. assert (dt' = dt) by congruence. subst dt'. clear Ed.
  apply says_look; [apply looks_has|]. intros b.
  apply says_silent; [apply silent_unless, silent_aspect|].
  apply says_look; [apply looks_aspect_get|]. intros asp. apply says_lift_then. intros dq Edq.
  rewrite (meant_has _ _ _ _ Edq), (local_eq _ _ _ Edq).
  destruct (has_typed_qname is_dimension rep dq); cbn [negb]; [|apply says_report_ret; reflexivity].
  apply says_lift_then. intros dim _.
  destruct (x_text x) as [[|c m]|]; [apply says_report_ret; reflexivity| |apply says_report_ret; reflexivity].
  apply says_lift_then. intros mq Emq. rewrite (meant_has _ _ _ _ Emq).
  destruct (has_typed_qname is_member rep mq); cbn [negb report_unless]; [|apply says_report_ret; reflexivity].
  apply says_lift_then. intros mem _.
  apply says_look; [apply looks_has|]. intros b'.
  apply says_silent; [apply silent_unless, silent_upsert; discriminate|].
  apply says_look; [apply looks_get|]. intros ch. apply says_ret. reflexivity.
Qed.

Lemma says_typed x dt : attr x (u "dimension") = Some dt ->
  says free (parse_typed rep x) (fun _ rs => rs = typed_reports x dt).
Proof.
  intros Ha. unfold parse_typed, typed_reports. apply says_lift_then. intros dt' Ed.
  apply get_attr in Ed. assert (dt' = dt) by congruence. subst dt'. clear Ed.
  apply says_look; [apply looks_aspect_has|]. intros b.
  apply says_silent; [apply silent_unless, silent_aspect|].
  apply says_look; [apply looks_aspect_get|]. intros asp. apply says_lift_then. intros dq Edq.
  destruct (has_typed_qname is_dimension rep dq) eqn:Eh.
  2:{ intros s a s' _. unfold mbind at 1. destruct (report _ x _ s) as [[[] s1]|]; [|discriminate].
      unfold mbind, lift. unfold has_typed_qname in Eh. destruct (get_typed_by_qname is_dimension rep dq); discriminate. }
  apply says_silent; [apply silent_ret|]. apply says_lift_then. intros dim _.
  eapply says_bind with (P := fun _ rs => rs = report_unless (match x_kids x with _ :: _ :: _ => false | _ => true end)
     (Report "MULTIPLE_TYPED_DIMENSION_ELEMENT_CHILDREN" x [(u "dimension", dt)])); [apply keeps_true| |].
  { destruct (x_kids x) as [|k [|k' r]]; cbn [length Nat.ltb Nat.leb]; [apply says_ret|apply says_ret|apply says_report]; reflexivity. }
  intros [] rs ->. destruct (x_kids x) as [|k r]; [apply says_report_ret; reflexivity|].
  destruct (x_text k) as [v|]; [|apply says_report_ret; reflexivity].
  apply says_look; [apply looks_has|]. intros b'.
  apply says_silent; [apply silent_unless, silent_upsert; discriminate|].
  apply says_look; [apply looks_get|]. intros ch. apply says_ret. reflexivity.
Qed.

Lemma says_dimensions l : forall c, says free (parse_dimensions rep l c) (fun _ rs => rs = flat_map (dimension_reports rep) l).
Proof.
  induction l as [|d l IH]; intros c; cbn [parse_dimensions flat_map]; [apply says_ret; reflexivity|].
  unfold dimension_reports at 1. apply says_lift_then. intros b Eb. apply tag_contains_says in Eb as ->.
  destruct (tag_says "explicitMember" d).
  - destruct (attr d (u "dimension")) as [dt|] eqn:Ea.
    + eapply says_bind; [apply keeps_true|apply says_explicit, Ea|]. intros x rs ->.
      eapply says_conseq; [apply IH|]. intros ? ? ->. reflexivity.
    + unfold parse_explicit, get_str_attribute. rewrite Ea. intros s a s' _ H. discriminate H.
  - apply says_lift_then. intros b Eb. apply tag_contains_says in Eb as ->.
    destruct (tag_says "typedMember" d).
    + destruct (attr d (u "dimension")) as [dt|] eqn:Ea.
      * eapply says_bind; [apply keeps_true|apply says_typed, Ea|]. intros x rs ->.
        eapply says_conseq; [apply IH|]. intros ? ? ->. reflexivity.
      * unfold parse_typed, get_str_attribute. rewrite Ea. intros s a s' _ H. discriminate H.
    + eapply says_bind; [apply keeps_true|apply says_report with (Q := fun _ rs => rs = [Report "INVALID_DIMENSION_TYPE" d []]); reflexivity|].
      intros [] rs ->. eapply says_conseq; [apply IH|]. intros ? ? ->. reflexivity.
Qed.

(** ** Units *)

Lemma says_measure x : says free (parse_measure x) (fun r rs => given r = given (x_text x) /\
  rs = report_unless (given (x_text x)) (Report "XML_MISSING_UNIT_MEASURE" x [])).
Proof.
  unfold parse_measure. destruct (x_text x); [|apply says_report_ret; split; reflexivity].
  apply says_lift_then. intros q _. apply says_ret. split; reflexivity.
Qed.

Lemma says_divide x id l : forall ns ds, says free (parse_divide x id l ns ds) (fun r rs =>
  given r = forallb part_readable l /\ rs = parts_reports x id l).
Proof.
  induction l as [|nd l IH]; intros ns ds; cbn [parse_divide parts_reports forallb].
  - apply says_ret. split; reflexivity.
  - apply says_lift_then. intros bn En. apply says_lift_then. intros bd Ed. apply tag_contains_says in En, Ed.
    eapply says_bind with (P := fun _ rs => rs = report_unless (tag_says "unitNumerator" nd || tag_says "unitDenominator" nd)
        (Report "XML_INVALID_DIVIDE_ELEMENT_CHILDREN" x [(u "id", id); (u "child_tag", str_opt (x_tag nd))])); [apply keeps_true| |].
    { rewrite En, Ed. destruct (tag_says "unitNumerator" nd), (tag_says "unitDenominator" nd); cbn [negb andb orb];
        (apply says_ret || apply says_report); reflexivity. }
    intros [] rs ->. unfold part_readable at 1. destruct (x_kids nd) as [|m r]; [apply says_fail|].
    eapply says_bind; [apply keeps_true|apply says_measure|]. intros q rs [Hq ->].
    destruct q as [q|]; cbn [given] in Hq; rewrite <- Hq; cbn [report_unless andb].
    + destruct bn, bd; (eapply says_conseq; [apply IH|]; intros ? ? [H ->]; auto).
    + apply says_ret. split; reflexivity.
Qed.

(** [parse_unit] without its first steps. *)
Definition unit_body (x : xml) (id : str) : M (option characteristic) :=
  match x_kids x with
  | [child] =>
      let! is_measure := lift (tag_contains (u "measure") child) in
      if is_measure then
        let! q := parse_measure child in
        match q with
        | None => ret None
        | Some q => ret (Some (ChUnit id [q] []))
        end
      else
        let! is_divide := lift (tag_contains (u "divide") child) in
        if is_divide then
          let! _ := (if negb (Nat.eqb (length (x_kids child)) 2)
                     then report "XML_DIVIDE_ELEMENT_WITHOUT_TWO_CHILDREN" x
                            [(u "id", id);
                             (u "child_count", z_to_str (Z.of_nat (length (x_kids child))))]
                     else ret tt) in
          let! nd := parse_divide x id (x_kids child) [] [] in
          match nd with
          | None => ret None
          | Some (nums, dens) =>
              match x_kids child with
              | a :: b :: _ =>
                  let! _ := (if opt_eqb str_eqb (x_tag a) (x_tag b)
                             then report "XML_DUPLICATE_DIVIDE_ELEMENT_CHILDREN" x
                                    [(u "id", id); (u "tag", str_opt (x_tag a))]
                             else ret tt) in
                  ret (Some (ChUnit id nums dens))
              | _ => fail IndexError
              end
          end
        else
          let! _ := report "XML_INVALID_UNIT_ELEMENT_CHILDREN" x
                      [(u "id", id); (u "child_tag", str_opt (x_tag child))] in
          ret (Some (ChUnit id [] []))
  | kids =>
      let! _ := report "XML_UNIT_ELEMENT_WITHOUT_ONE_CHILD" x
                  [(u "id", id); (u "child_count", z_to_str (Z.of_nat (length kids)))] in
      ret (Some (ChUnit id [] []))
  end.

(** A unit that is not known yet. *)
Definition unknown (id : str) (s : state) : Prop := known s id = false.

Lemma parse_unit_body x id s : attr x (u "id") = Some id -> known s id = false -> parse_unit x s = unit_body x id s.
Proof.
  intros Hid Hs. unfold parse_unit. unfold mbind at 1. unfold lift, get_str_attribute. rewrite Hid.
  unfold mbind at 1. unfold char_has at 1. change (dict_mem char_key_eqb (s_chars s) (id, ClsUnit)) with (known s id). rewrite Hs.
  unfold mbind at 1. unfold ret at 1. reflexivity.
Qed.

Lemma says_unit_body x id : says free (unit_body x id) (fun r rs => given r = unit_readable x /\ rs = unit_reports x id).
Proof.
  unfold unit_body, unit_readable, unit_reports, count_str. destruct (x_kids x) as [|k [|k' r]]; [apply says_report_ret; split; reflexivity| |apply says_report_ret; split; reflexivity].
    apply says_lift_then. intros b Eb. apply tag_contains_says in Eb as ->. destruct (tag_says "measure" k).
    { eapply says_bind; [apply keeps_true|apply says_measure|]. intros q rs [Hq ->]. rewrite <- Hq. destruct q; apply says_ret; split; reflexivity. }
    apply says_lift_then. intros b Eb. apply tag_contains_says in Eb as ->. destruct (tag_says "divide" k).
    2:{ apply says_report_ret. split; reflexivity. }
    unfold divide_reports, count_str.
    eapply says_bind with (P := fun _ rs => rs = report_unless (Nat.eqb (length (x_kids k)) 2)
      (Report "XML_DIVIDE_ELEMENT_WITHOUT_TWO_CHILDREN" x [(u "id", id); (u "child_count", z_to_str (Z.of_nat (length (x_kids k))))])); [apply keeps_true| |].
    { destruct (Nat.eqb (length (x_kids k)) 2); cbn [negb]; [apply says_ret|apply says_report]; reflexivity. }
    intros [] rs ->. eapply says_bind; [apply keeps_true|apply says_divide|]. intros nd rs [Hn ->]. rewrite <- Hn.
    destruct nd as [[ns ds]|]; cbn [given andb].
    - destruct (x_kids k) as [|c [|d l]]; [apply says_fail|apply says_fail|].
      eapply says_bind with (P := fun _ rs => rs = report_unless (negb (opt_eqb str_eqb (x_tag c) (x_tag d)))
        (Report "XML_DUPLICATE_DIVIDE_ELEMENT_CHILDREN" x [(u "id", id); (u "tag", str_opt (x_tag c))])); [apply keeps_true| |].
      { destruct (opt_eqb str_eqb (x_tag c) (x_tag d)); cbn [negb]; [apply says_report|apply says_ret]; reflexivity. }
      intros [] rs ->. apply says_ret. split; [reflexivity|]. rewrite app_nil_r. reflexivity.
    - apply says_ret. split; [reflexivity|]. destruct (x_kids k) as [|c [|d l]]; rewrite ?app_nil_r; reflexivity.
Qed.
Lemma says_unit x id : attr x (u "id") = Some id ->
  says (unknown id) (parse_unit x) (fun r rs => given r = unit_readable x /\ rs = unit_reports x id).
Proof.
  intros Hid s a s' Hs. rewrite (parse_unit_body x id s Hid Hs). apply (says_unit_body x id s a s' Logic.I).
Qed.

(** ** Periods *)

Lemma is_date_iff x b : is_date parse_date (x_text x) = Ok b -> b = given (date_of parse_date x).
Proof.
  unfold is_date, date_of. destruct (x_text x) as [[|c t]|]; try (intros [= <-]; reflexivity).
  destruct (parse_date (c :: t)) as [d|[]]; try discriminate; intros [= <-]; reflexivity.
Qed.

Lemma says_date I x : says I (get_context_date parse_date x) (fun r rs =>
  r = (if given (date_of parse_date x) then x_text x else None) /\ rs = date_reports parse_date x).
Proof.
  unfold get_context_date, date_reports. apply says_lift_then. intros b Eb. apply is_date_iff in Eb as ->.
  destruct (given (date_of parse_date x)); [apply says_ret|apply says_report_ret]; split; reflexivity.
Qed.

Variable docs : list xml.
Notation inv := (inv parse_date rep docs).

Lemma keeps_date x : keeps inv (get_context_date parse_date x).
Proof. intros s a s' Hi E. apply (get_context_date_spec parse_date rep docs x s a s' Hi E). Qed.

Lemma date_text x d : date_of parse_date x = Some d -> exists c t, x_text x = Some (c :: t) /\ parse_date (c :: t) = Ok d.
Proof.
  unfold date_of. destruct (x_text x) as [[|c t]|]; try discriminate. destruct (parse_date (c :: t)) eqn:E; [|discriminate].
  intros [= ->]. eauto.
Qed.

Lemma says_period x : no_period_word parse_date -> plain_period x ->
  says inv (parse_period parse_date x) (fun _ rs => rs = period_reports parse_date x).
Proof.
  intros Hw Hp. unfold parse_period, period_reports.
  destruct (find_kid (u "instant") x) as [i|].
  { unfold parse_instant_period. eapply says_bind; [apply keeps_date|apply says_date|]. intros r rs [-> ->].
    destruct (if given (date_of parse_date i) then x_text i else None) as [t|]; [|apply says_ret, app_nil_r].
    apply says_look; [apply looks_has|]. intros [|].
    - apply says_look; [apply looks_get|]. intros c. apply says_ret, app_nil_r.
    - apply says_lift_then. intros p _. apply says_free.
      apply says_silent; [apply silent_upsert; discriminate|]. apply says_ret, app_nil_r. }
  destruct (find_kid (u "startDate") x) as [xs|] eqn:Exs; [|apply says_report_ret; reflexivity].
  destruct (find_kid (u "endDate") x) as [xe|] eqn:Exe; [|apply says_report_ret; reflexivity].
  unfold parse_duration_period, order_reports.
  eapply says_bind; [apply keeps_date|apply says_date|]. intros r rs [-> ->].
  eapply says_bind; [apply keeps_date|apply says_date|]. intros r rs [-> ->].
  destruct (date_of parse_date xs) as [ds|] eqn:Eds; cbn [given]; [|apply says_ret; reflexivity].
  apply date_text in Eds as (cs & ts & Ets & Eds).
  destruct (date_of parse_date xe) as [de|] eqn:Ede; cbn [given]; [|rewrite Ets; apply says_ret; reflexivity].
  apply date_text in Ede as (ce & te & Ete & Ede).
  assert (Ps : no_space (cs :: ts)) by (eapply (Hp (u "startDate")); cbn; eauto).
  assert (Pe : no_space (ce :: te)) by (eapply (Hp (u "endDate")); cbn; eauto).
  rewrite Ets, Ete. cbn [str_opt]. revert Eds Ede Ps Pe. generalize (@nil_cons _ cs ts), (@nil_cons _ ce te). generalize (cs :: ts), (ce :: te).
  intros s e Ns Ne Eds Ede Ps Pe.
  assert (Hk : forall st, inv st -> dict_mem char_key_eqb (s_chars st) (u "period " ++ s ++ u " " ++ e, ClsPeriod) = true -> date_ltb de ds = false).
  { intros st Hi Hm. destruct (key_known _ _ _ _ _ _ Hi Hm) as (c & _ & Hc & Ho). destruct c; try discriminate.
    cbn [origin] in Ho. inversion Ho as [d' Hn' Hd'|s' e' ds' de' E' Hs' He' Hds' Hde' Hl].
    - destruct (Hw (s ++ u " " ++ e) d'). exact Hd'.
    - apply app_inv_head in E'. apply no_space_split in E' as [<- <-]; [|exact Ps|exact Pe]. congruence. }
  apply (says_has inv (date_ltb de ds = false)); [exact Hk| |].
  - intros ->. apply says_look; [apply looks_get|]. intros c. apply says_ret. rewrite !app_nil_r. reflexivity.
  - rewrite (make_duration_bad parse_date s e ds de Eds Ede (not_eq_sym Ns) (not_eq_sym Ne)).
    destruct (date_ltb de ds); cbn [negb report_unless].
    + apply says_report_ret. reflexivity.
    + apply says_silent; [apply silent_upsert; discriminate|]. apply says_ret. rewrite !app_nil_r. reflexivity.
Qed.

(** ** Contexts *)

Lemma says_context x chars : no_period_word parse_date -> (forall xp, find_kid (u "period") x = Some xp -> plain_period xp) ->
  says inv (parse_context parse_date rep x chars) (fun r rs => given r = context_readable x /\ rs = context_reports parse_date rep x).
Proof.
  intros Hw Hp. unfold parse_context, context_readable, context_reports. apply says_lift_then. intros id _.
  destruct (find_kid (u "period") x) as [xp|]; [|apply says_report_ret; split; reflexivity].
  destruct (find_kid (u "entity") x) as [xe|]; [|apply says_report_ret; split; reflexivity].
  eapply says_bind; [|apply says_period; [exact Hw|apply Hp; reflexivity]|].
  { intros s a s' Hi E. apply (parse_period_spec parse_date rep docs xp s a s' Hi E). }
  intros p rs ->. apply says_free. eapply says_bind; [apply keeps_true|apply says_entity|]. intros en rs ->.
  destruct (find_kid (u "segment") xe) as [seg|].
  - eapply says_bind; [apply keeps_true|apply says_dimensions|]. intros c rs ->. apply says_ret. split; [reflexivity|]. rewrite app_nil_r. reflexivity.
  - apply says_ret. split; reflexivity.
Qed.

(** ** Facts *)

Lemma says_concept x : says free (concept_characteristic rep x (fact_tag x)) (fun _ rs => rs = []).
Proof.
  unfold concept_characteristic. apply says_look; [apply looks_has|]. intros b.
  apply says_silent; [|intros s a s' _ E; apply looks_get in E as ->; split; [apply same_refl|exists [], []; rewrite app_nil_r; auto]].
  destruct b; [apply silent_ret|]. intros s a s' _. unfold mbind, lift.
  destruct (qname_from_str (fact_tag x) (x_scope x)) as [q|]; [|discriminate]. destruct (get_typed_by_qname is_concept rep q) as [e|]; [|discriminate].
  apply silent_upsert; [discriminate|exact Logic.I].
Qed.

Lemma bind_inv {A B} (m : M A) (f : A -> M B) s r : mbind m f s = Ok r -> exists a s1, m s = Ok (a, s1) /\ f a s1 = Ok r.
Proof. unfold mbind. destruct (m s) as [[a s1]|]; [|discriminate]. eauto. Qed.

Lemma says_value x c e s s' : get_characteristic c a_concept = Some (ChConcept e) ->
  (forall cu r rs, get_characteristic c a_unit = Some cu -> attr x (u "unitRef") = Some (r :: rs) -> value_str cu = r :: rs) ->
  parse_fact nillable x c s = Ok (tt, s') ->
  (forall id, known s' id = known s id) /\ (exists es, s_errors s' = s_errors s ++ es /\ Forall2 made (value_reports nillable x e) es) /\
  s_facts s' = facts_upsert (s_facts s) (Fact c (match x_text x with Some v => v | None => [] end) (attr x (u "id"))).
Proof.
  intros Hc Hu E. unfold parse_fact in E. rewrite Hc in E. unfold value_reports, fact_tag.
  apply bind_inv in E as (v & s1 & E1 & E).
  assert (G1 : says free (match x_text x with
                     | Some v => ret v
                     | None =>
                         let! _ := (if nillable e then ret tt
                                    else report "MISSING_FACT_VALUE" x [(u "concept", str_opt (x_tag x))]) in
                         ret []
                     end) (fun v rs => v = match x_text x with Some v => v | None => [] end /\
      rs = report_unless (given (x_text x) || nillable e) (Report "MISSING_FACT_VALUE" x [(u "concept", str_opt (x_tag x))]))).
  { destruct (x_text x); [apply says_ret; split; reflexivity|]. cbn [given orb]. destruct (nillable e).
    - apply says_silent; [apply silent_ret|]. apply says_ret. split; reflexivity.
    - apply says_report_ret. split; reflexivity. }
  destruct (G1 _ _ _ Logic.I E1) as ([K1 F1] & rs1 & es1 & R1 & M1 & -> & ->). clear G1 E1.
  apply bind_inv in E as ([] & s2 & E2 & E).
  assert (s2 = s1); [|subst s2; clear E2].
  { destruct (get_characteristic c a_unit) as [cu|]; [|unfold ret in E2; congruence]. destruct (attr x (u "unitRef")) as [[|r rs]|]; [unfold ret in E2; congruence| |unfold ret in E2; congruence].
    rewrite (Hu cu r rs eq_refl eq_refl), str_eqb_refl in E2. unfold ret in E2. congruence. }
  apply bind_inv in E as ([] & s3 & E3 & E).
  assert (G3 : says free (if str_eqb (str_opt (x_tag x)) (clark_notation (e_name e)) then ret tt
                 else report "FACT_CONCEPT_MISMATCH" x
                        [(u "fact_concept", str_opt (x_tag x));
                         (u "context_concept", clark_notation (e_name e))])
    (fun _ rs => rs = report_unless (str_eqb (str_opt (x_tag x)) (clark_notation (e_name e))) (Report "FACT_CONCEPT_MISMATCH" x
       [(u "fact_concept", str_opt (x_tag x)); (u "context_concept", clark_notation (e_name e))]))).
  { destruct (str_eqb (str_opt (x_tag x)) (clark_notation (e_name e))); [apply says_ret|apply says_report]; reflexivity. }
  destruct (G3 _ _ _ Logic.I E3) as ([K3 F3] & rs3 & es3 & R3 & M3 & ->). clear G3 E3.
  injection E as <-. unfold known. cbn [s_chars s_errors s_facts]. split; [intros id; exact (eq_trans (K3 id) (K1 id))|].
  split; [|congruence]. exists (es1 ++ es3). split; [rewrite R3, R1, app_assoc; reflexivity|]. apply Forall2_app; assumption.
Qed.

(** *** Units of facts *)

Hypothesis Hunit : one_unit docs.
Hypothesis Hconcept : one_concept rep docs.
Hypothesis Hplain : plain_periods docs.
Hypothesis Hword : no_period_word parse_date.

(** The units of [K] are known, and they can be read. *)
Definition knows (K : list str) (s : state) : Prop :=
  (forall id, known s id = existsb (str_eqb id) K) /\
  (forall id, In id K -> exists j xu, In j docs /\ find_by_id (u "unit") id j = Some xu /\ unit_readable xu = true).

Lemma knows_same K s s' : same s s' -> knows K s -> knows K s'.
Proof. intros [H _] [A B]. split; [intros id; rewrite H; apply A|exact B]. Qed.

Lemma fact_unit_says i x K s r s' : In i docs -> inv s -> knows K s -> fact_unit i x s = Ok (r, s') ->
  s_facts s' = s_facts s /\
  exists rs es, s_errors s' = s_errors s ++ es /\ Forall2 made rs es /\
  match unit_ref i x with
  | UNone => r = Some [] /\ rs = [] /\ knows K s'
  | UUnknown id => r = None /\ rs = [Report "XML_INVALID_FACT_UNIT_ID" x [(u "unit_id", id)]] /\ knows K s'
  | UElement id xu => given r = unit_readable xu /\ rs = (if existsb (str_eqb id) K then [] else unit_reports xu id) /\
      knows (K ++ if unit_readable xu then [id] else []) s' /\ (unit_readable xu = true \/ existsb (str_eqb id) K = false)
  end.
Proof.
  intros Hi Hinv HK. unfold fact_unit, unit_ref. destruct (attr x (u "unitRef")) as [[|c id]|].
  1,3: intros [= <- <-]; split; [reflexivity|]; exists [], []; rewrite app_nil_r; auto.
  generalize (c :: id). clear c id. intros id.
  destruct (find_by_id (u "unit") id i) as [xu|] eqn:Ef.
  2:{ intros E. destruct (says_report_ret free "XML_INVALID_FACT_UNIT_ID" x [(u "unit_id", id)] None
        (fun r rs => r = None /\ rs = [Report "XML_INVALID_FACT_UNIT_ID" x [(u "unit_id", id)]]) (conj eq_refl eq_refl) s r s' Logic.I E) as (Hs & rs & es & H1 & H2 & H3 & H4).
      split; [apply Hs|]. exists rs, es. split; [exact H1|]. split; [exact H2|]. split; [exact H3|]. split; [exact H4|]. eapply knows_same; eassumption. }
  destruct (find_by_id_some _ _ _ _ Ef) as [_ Hid]. unfold mbind at 1. unfold char_has at 1.
  change (dict_mem char_key_eqb (s_chars s) (id, ClsUnit)) with (known s id). rewrite (proj1 HK id).
  destruct (existsb (str_eqb id) K) eqn:Ek.
  - assert (Hr : unit_readable xu = true).
    { apply existsb_exists in Ek as (k & Hin & E). apply str_eqb_eq in E as <-. destruct (proj2 HK id Hin) as (j & xu' & Hj & Hf & Hr).
      rewrite <- (Hunit j i id xu' xu Hj Hi Hf Ef). exact Hr. }
    rewrite Hr. intros E. apply bind_inv in E as (ok & s1 & [= <- <-] & E).
    apply bind_inv in E as (ch & s1 & Eg & [= <- <-]). apply looks_get in Eg as ->. split; [reflexivity|]. exists [], []. rewrite app_nil_r.
    split; [reflexivity|]. split; [constructor|]. split; [reflexivity|]. split; [reflexivity|]. split; [|left; reflexivity].
    split.
    + intros id'. rewrite (proj1 HK id'), existsb_app. cbn [existsb]. destruct (str_eqb_spec id' id) as [->|_]; [rewrite Ek|rewrite orb_false_r]; reflexivity.
    + intros id' H. apply in_app_or in H as [H|[<-|[]]]; [apply (proj2 HK), H|]. exists i, xu. auto.
  - intros E. apply bind_inv in E as (ok & s2 & E1 & E). apply bind_inv in E1 as (new & s1 & Eu & E1).
    assert (Hs : unknown id s) by (unfold unknown; rewrite (proj1 HK id); exact Ek).
    destruct (says_unit xu id Hid s new s1 Hs Eu) as (Hsame & rs & es & H1 & H2 & H3 & H4).
    destruct new as [ch|]; cbn [given] in H3; rewrite <- H3.
    + apply bind_inv in E1 as ([] & s3 & Eup & [= <- <-]). injection Eup as <-.
      apply bind_inv in E as (ch' & s3 & Eg & [= <- <-]). apply looks_get in Eg as ->. cbn [s_errors s_facts].
      split; [apply Hsame|]. exists rs, es. split; [exact H1|]. split; [exact H2|]. split; [reflexivity|]. split; [exact H4|]. split; [|left; reflexivity].
      assert (Hcls : class_of ch = ClsUnit).
      { destruct (parse_unit_spec parse_date rep docs xu id Hid s _ s1 Hinv Eu) as (_ & _ & es' & _ & (ns & ds & _ & ->) & _). reflexivity. }
      split.
      * intros id'. unfold known. cbn [s_chars]. rewrite (dict_mem_set _ char_key_eqb_spec), existsb_app. cbn [existsb].
        change (dict_mem char_key_eqb (s_chars s1) (id', ClsUnit)) with (known s1 id'). rewrite (proj1 Hsame id'), (proj1 HK id'), Hcls.
        unfold char_key_eqb. cbn [fst snd cls_eqb]. rewrite andb_true_r, orb_false_r, orb_comm. f_equal. apply str_eqb_sym.
      * intros id' H. apply in_app_or in H as [H|[<-|[]]]; [apply (proj2 HK), H|]. exists i, xu. auto.
    + injection E1 as <- <-. injection E as <- <-. split; [apply Hsame|]. exists rs, es. rewrite app_nil_r.
      split; [exact H1|]. split; [exact H2|]. split; [reflexivity|]. split; [exact H4|]. split; [eapply knows_same; eassumption|right; reflexivity].
Qed.

(** *** Fact elements *)

Notation fact_shared := (fact_as (concept_shared rep docs) (unit_shared docs) (entity_shared docs) (period_shared parse_date)
  (explicit_shared rep docs) (typed_shared rep docs)).

(** What a fact element does. *)
Lemma fact_element_says i x K s s' : In i docs -> In x (fact_elements i) -> inv s -> knows K s ->
  parse_fact_element parse_date rep nillable i x s = Ok (tt, s') ->
  inv s' /\ knows (K ++ makes_known rep i x) s' /\
  exists o, outcome_of (concept_shared rep docs) (unit_shared docs) (entity_shared docs) (period_shared parse_date)
      (explicit_shared rep docs) (typed_shared rep docs) (i, x) o /\
    s_errors s' = s_errors s ++ snd o /\
    s_facts s' = match fst o with Some f => facts_upsert (s_facts s) f | None => s_facts s end /\
    Forall2 made (fact_reports parse_date rep nillable K i x) (snd o) /\ given (fst o) = has_fact rep i x.
Proof.
  intros Hi Hx Hinv HK E.
  assert (Ho : occurs docs x).
  { exists i. split; [exact Hi|]. apply filter_In in Hx as [Hx _]. exact Hx. }
  destruct (parse_fact_element_sem parse_date rep nillable docs i x Hi Hx s s' Hinv E) as (Hinv' & _). split; [exact Hinv'|].
  unfold parse_fact_element in E. apply bind_inv in E as (q & s0 & Eq & E).
  assert (Eq' : qname_from_str (fact_tag x) (x_scope x) = Ok q /\ s0 = s).
  { unfold lift in Eq. unfold fact_tag. destruct (qname_from_str (str_opt (x_tag x)) (x_scope x)); [|discriminate]. split; congruence. }
  clear Eq. destruct Eq' as [Eq ->].
  unfold fact_reports, makes_known, has_fact, fact_concept, meant. rewrite Eq. unfold has_typed_qname in E.
  destruct (get_typed_by_qname is_concept rep q) as [e|] eqn:Ee; cbn [negb] in E.
  2:{ destruct (says_report free "XML_FACT_INVALID_CONCEPT" x [(u "concept_name", str_opt (x_tag x))]
        (fun _ rs => rs = [Report "XML_FACT_INVALID_CONCEPT" x [(u "concept_name", str_opt (x_tag x))]]) eq_refl s tt s' Logic.I E) as (Hs & rs & es & H1 & H2 & ->).
      split; [rewrite app_nil_r; eapply knows_same; eassumption|]. exists (None, es). split; [|split; [exact H1|split; [apply Hs|split; [exact H2|reflexivity]]]].
      cbn. intros ->. inversion H2. }
  apply bind_inv in E as (cc & s1 & Ec & E).
  assert (Hown : exists e', concept_exact rep x e') by (exists e; split; [reflexivity|]; exists q; auto).
  destruct (concept_spec parse_date rep docs x Ho Hown s cc s1 Hinv Ec) as (Hinv1 & F1 & es1 & R1 & e' & -> & Hc).
  assert (e' = e).
  { destruct (concept_to_exact rep docs x e' Hconcept Ho Hc) as (_ & q' & Eq' & Ee'). unfold fact_tag in Eq. congruence. } subst e'.
  destruct (says_concept x s (ChConcept e) s1 Logic.I Ec) as (S1 & rs1 & es1' & R1' & M1 & ->). inversion M1; subst es1'. clear M1 Ec R1 es1. rewrite app_nil_r in R1'.
  assert (HK1 : knows K s1) by (eapply knows_same; eassumption).
  apply bind_inv in E as (us & s2 & Eu & E).
  destruct (fact_unit_spec parse_date rep docs i x Hi s1 us s2 Hinv1 Eu) as (Hinv2 & F2 & es2 & R2 & Hus & Hne).
  destruct (fact_unit_says i x K s1 us s2 Hi Hinv1 HK1 Eu) as (_ & rs2 & es2' & R2' & M2 & HU).
  assert (es2' = es2) by (rewrite R2 in R2'; apply app_inv_head in R2'; congruence). subst es2'. clear R2'.
  (* the unit cannot be read *)
  destruct us as [us|].
  2:{ injection E as <-. specialize (Hne eq_refl).
      assert (G : knows (K ++ match unit_ref i x with UElement id xu => if unit_readable xu then [id] else [] | _ => [] end) s2 /\
        rs2 = match unit_ref i x with UNone => body_reports parse_date rep nillable i x e | UUnknown id => [Report "XML_INVALID_FACT_UNIT_ID" x [(u "unit_id", id)]]
          | UElement id xu => (if existsb (str_eqb id) K then [] else unit_reports xu id) ++ (if unit_readable xu then body_reports parse_date rep nillable i x e else []) end /\
        match unit_ref i x with UNone => true | UUnknown _ => false | UElement _ xu => unit_readable xu end = false).
      { destruct (unit_ref i x) as [|id|id xu].
        - destruct HU as [HU _]. discriminate HU.
        - destruct HU as (_ & HU & HK2). rewrite app_nil_r. auto.
        - cbn [given] in HU. destruct HU as (HU & -> & HK2 & _). rewrite <- HU in HK2 |- *. rewrite !app_nil_r in *. auto. }
      destruct G as (HK2 & -> & Hno). rewrite Hno. cbn [given andb]. split; [exact HK2|].
      exists (None, es2). cbn [fst snd]. split; [exact Hne|]. split; [rewrite R2, R1'; reflexivity|]. split; [rewrite F2; apply F1|].
      split; [exact M2|reflexivity]. }
  apply bind_inv in E as (cid & s2' & Ecid & E).
  assert (Hcid : attr x (u "contextRef") = Some cid /\ s2' = s2).
  { unfold lift, get_str_attribute in Ecid. destruct (attr x (u "contextRef")); [|discriminate]. split; congruence. }
  destruct Hcid as [Hcid ->]. clear Ecid. rewrite Hcid.
  assert (G : knows (K ++ match unit_ref i x with UElement id xu => if unit_readable xu then [id] else [] | _ => [] end) s2 /\
    (forall body, match unit_ref i x with UNone => body | UUnknown id => [Report "XML_INVALID_FACT_UNIT_ID" x [(u "unit_id", id)]]
      | UElement id xu => (if existsb (str_eqb id) K then [] else unit_reports xu id) ++ (if unit_readable xu then body else []) end = rs2 ++ body) /\
    match unit_ref i x with UNone => true | UUnknown _ => false | UElement _ xu => unit_readable xu end = true).
  { destruct (unit_ref i x) as [|id|id xu].
    - destruct HU as (_ & -> & HK2). rewrite app_nil_r. auto.
    - destruct HU as [HU _]. discriminate HU.
    - cbn [given] in HU. destruct HU as (HU & -> & HK2 & _). rewrite <- HU in HK2 |- *. auto. }
  clear HU. destruct G as (HK2 & HR & ->). rewrite HR. cbn [given andb]. clear HR. unfold body_reports. rewrite Hcid.
  destruct (find_by_id (u "context") cid i) as [xc|] eqn:Ef.
  2:{ destruct (says_report free "XML_INVALID_FACT_CONTEXT_ID" x [(u "context_id", cid)]
        (fun _ rs => rs = [Report "XML_INVALID_FACT_CONTEXT_ID" x [(u "context_id", cid)]]) eq_refl s2 tt s' Logic.I E) as (S3 & rs3 & es3 & R3 & M3 & ->).
      split; [eapply knows_same; eassumption|]. exists (None, es2 ++ es3). cbn [fst snd].
      split; [intros H; apply app_eq_nil in H as [_ ->]; inversion M3|]. split; [rewrite R3, R2, R1', app_assoc; reflexivity|].
      split; [rewrite (proj2 S3), F2; exact F1|]. split; [apply Forall2_app; assumption|reflexivity]. }
  assert (Hxc : occurs docs xc) by (eapply occurs_by_id; eauto).
  apply bind_inv in E as (cx & s3 & Ecx & E).
  destruct (parse_context_spec parse_date rep docs xc (ChConcept e :: us) Hxc s2 cx s3 Hinv2 Ecx) as (Hinv3 & F3 & es3 & R3 & Hcx & Hne3).
  assert (Hpl : forall xp, find_kid (u "period") xc = Some xp -> plain_period xp).
  { intros xp H. apply Hplain. eapply occurs_find; eauto. }
  destruct (says_context xc (ChConcept e :: us) Hword Hpl s2 cx s3 Hinv2 Ecx) as (S3 & rs3 & es3' & R3' & M3 & Hg & ->).
  assert (es3' = es3) by (rewrite R3 in R3'; apply app_inv_head in R3'; congruence). subst es3'. clear R3'. rewrite <- Hg.
  destruct cx as [cx|]; cbn [given].
  2:{ injection E as <-. split; [eapply knows_same; eassumption|]. exists (None, es2 ++ es3). cbn [fst snd]. rewrite app_nil_r.
      split; [intros H; apply app_eq_nil in H as [_ H]; exact (Hne3 eq_refl H)|]. split; [rewrite R3, R2, R1', app_assoc; reflexivity|].
      split; [rewrite F3, F2; exact F1|]. split; [apply Forall2_app; assumption|reflexivity]. }
  destruct Hcx as (id & xp & xe & p & en & ds & Hid & Hp & Hen & H1 & H2 & H3 & Hcx).
  assert (Hgc : get_characteristic cx a_concept = Some (ChConcept e)) by (rewrite Hcx; apply first_concept).
  assert (Hgu : forall cu r rs, get_characteristic cx a_unit = Some cu -> attr x (u "unitRef") = Some (r :: rs) -> value_str cu = r :: rs).
  { intros cu r rs Hcu Hr. unfold units_are in Hus. rewrite Hr in Hus. destruct Hus as (c0 & -> & Hsh).
    destruct Hsh as (_ & j & _ & xu & ns & dd & _ & _ & ->). rewrite Hcx, fold_get in Hcu by apply new_ok. cbn in Hcu. injection Hcu as <-. reflexivity. }
  destruct (says_value x cx e s3 s' Hgc Hgu E) as (K4 & (es4 & R4 & M4) & F4).
  split; [split; [intros k; rewrite K4, (proj1 S3 k); apply HK2|apply HK2]|].
  eexists (Some _, es2 ++ es3 ++ es4). cbn [fst snd]. split; [|split; [|split; [rewrite F4, F3, F2, F1; reflexivity|split; [|reflexivity]]]].
  - unfold outcome_of. cbn [fst snd]. exists cid, xc, e, us. cbn.
    destruct (find_by_id_some _ _ _ _ Ef) as [_ Hid']. assert (id = cid) by congruence. subst id.
    split; [exact Hcid|]. split; [exact Ef|]. split; [exact Hc|]. split; [exact Hus|].
    split; [exists cid, xp, xe, p, en, ds; auto 10|].
    split; [rewrite Hcx, fold_id; reflexivity|]. auto.
  - rewrite R4, R3, R2, R1', !app_assoc. reflexivity.
  - apply Forall2_app; [exact M2|]. apply Forall2_app; [exact M3|exact M4].
Qed.

(** All fact elements. *)
Definition fact_outcome (ix : xml * xml) (o : outcome) : Prop :=
  outcome_of (concept_shared rep docs) (unit_shared docs) (entity_shared docs) (period_shared parse_date)
      (explicit_shared rep docs) (typed_shared rep docs) ix o /\ given (fst o) = has_fact rep (fst ix) (snd ix).

Fixpoint known_after (K : list str) (l : list (xml * xml)) : list str :=
  match l with [] => K | (i, x) :: r => known_after (K ++ makes_known rep i x) r end.
Lemma known_after_app l : forall K l', known_after K (l ++ l') = known_after (known_after K l) l'.
Proof. induction l as [|[i x] l IH]; intros K l'; [reflexivity|]. cbn [app known_after]. apply IH. Qed.
Lemma facts_reports_app l : forall K l', facts_reports parse_date rep nillable K (l ++ l') =
  facts_reports parse_date rep nillable K l ++ facts_reports parse_date rep nillable (known_after K l) l'.
Proof.
  induction l as [|[i x] l IH]; intros K l'; [reflexivity|]. cbn [app known_after facts_reports]. rewrite IH, app_assoc. reflexivity.
Qed.

Lemma elements_says i xs : In i docs -> incl xs (fact_elements i) -> forall K s s', inv s -> knows K s ->
  for_each (parse_fact_element parse_date rep nillable i) xs s = Ok (tt, s') ->
  inv s' /\ knows (known_after K (map (pair i) xs)) s' /\ exists os, Forall2 fact_outcome (map (pair i) xs) os /\ after s os s' /\
    Forall2 made (facts_reports parse_date rep nillable K (map (pair i) xs)) (concat (map snd os)).
Proof.
  intros Hi. induction xs as [|x xs IH]; intros Hin K s s' Hs HK; cbn [for_each map known_after facts_reports].
  - intros [= <-]. split; [exact Hs|]. split; [exact HK|]. exists []. split; [constructor|]. split; [apply after_nil|constructor].
  - intros E. apply bind_inv in E as ([] & s1 & E1 & E).
    destruct (fact_element_says i x K s s1 Hi (Hin x (or_introl eq_refl)) Hs HK E1) as (Hs1 & HK1 & o & H1 & H2 & H3 & H4 & H5).
    destruct (IH (fun y Hy => Hin y (or_intror Hy)) _ s1 s' Hs1 HK1 E) as (Hs' & HK' & os & J1 & J2 & J3).
    split; [exact Hs'|]. split; [exact HK'|]. exists (o :: os). split; [constructor; [split; assumption|exact J1]|].
    split; [|cbn [map concat]; apply Forall2_app; assumption].
    apply (after_app s [o] s1 os s'); [|exact J2]. split; cbn; [rewrite app_nil_r; exact H2|]. rewrite H3. destruct (fst o); reflexivity.
Qed.

Lemma facts_says s s' : inv s -> knows [] s -> parse_facts parse_date rep nillable docs s = Ok (tt, s') ->
  exists os, Forall2 fact_outcome (all_fact_elements docs) os /\ after s os s' /\
    Forall2 made (facts_reports parse_date rep nillable [] (all_fact_elements docs)) (concat (map snd os)).
Proof.
  unfold parse_facts, all_fact_elements.
  assert (G : forall l, incl l docs -> forall K s s', inv s -> knows K s ->
    for_each (fun i => for_each (parse_fact_element parse_date rep nillable i) (fact_elements i)) l s = Ok (tt, s') ->
    exists os, Forall2 fact_outcome (flat_map (fun i => map (pair i) (fact_elements i)) l) os /\ after s os s' /\
      Forall2 made (facts_reports parse_date rep nillable K (flat_map (fun i => map (pair i) (fact_elements i)) l)) (concat (map snd os)));
    [|intros Hi HK; apply (G docs (incl_refl _) [] s s' Hi HK)].
  clear s s'. induction l as [|i l IH]; intros Hsub K s s' Hs HK; cbn [for_each flat_map].
  - intros [= <-]. exists []. split; [constructor|]. split; [apply after_nil|constructor].
  - intros E. apply bind_inv in E as ([] & s1 & E1 & E).
    destruct (elements_says i (fact_elements i) (Hsub i (or_introl eq_refl)) (incl_refl _) K s s1 Hs HK E1) as (Hs1 & HK1 & os & J1 & J2 & J3).
    destruct (IH (fun y Hy => Hsub y (or_intror Hy)) _ s1 s' Hs1 HK1 E) as (os' & J1' & J2' & J3').
    exists (os ++ os'). split; [apply Forall2_app; assumption|]. split; [eapply after_app; eassumption|].
    rewrite facts_reports_app, map_app, concat_app. apply Forall2_app; assumption.
Qed.
End Parse.
