(** Proofs about when the fact elements of XML instances can be read to their end (C97). *)
From Verif Require Import Base Regex PyNum QNameModel QNameProofs ErrBase ErrTable ErrModel CtxModel CtxSpec CtxProofs CtxParseProofs
  CtxExactProofs CtxReportSpec CtxReportProofs.

Local Opaque u.

Section Opens.
Variable parse_date : str -> res date.
Variable rep : repository.
Variable nillable : element -> bool.
Variable docs : list xml.
Notation inv := (inv parse_date rep docs).

Definition opens {A} (m : M A) (b : bool) : Prop :=
  forall s, inv s -> if b then exists a s', m s = Ok (a, s') else exists e, m s = Raise e.

Lemma opens_bind {A B} (m : M A) (f : A -> M B) (P : A -> Prop) b b' : keeps inv m ->
  (forall s a s', inv s -> m s = Ok (a, s') -> P a) -> opens m b ->
  (b = true -> forall a, P a -> opens (f a) b') -> opens (mbind m f) (b && b').
Proof.
  intros Hk HP Hm Hf s Hi. unfold mbind. specialize (Hm s Hi). destruct b; cbn [andb].
  - destruct Hm as (a & s1 & E). rewrite E. apply (Hf eq_refl a (HP _ _ _ Hi E) s1 (Hk _ _ _ Hi E)).
  - destruct Hm as (e & E). rewrite E. eauto.
Qed.

Lemma opens_ret {A} (a : A) : opens (ret a) true.
Proof. intros s _. unfold ret. eauto. Qed.

Lemma opens_lift {A B} (r : res A) (f : A -> M B) b :
  (forall a, r = Ok a -> opens (f a) b) -> opens (let! x := lift r in f x) (is_ok r && b).
Proof.
  intros H s Hi. unfold mbind, lift. destruct r as [a|e]; cbn [is_ok andb]; [apply H; auto|eauto].
Qed.

Lemma opens_look {A B} (m : M A) (f : A -> M B) b : looks m -> opens m true -> (forall a, opens (f a) b) -> opens (mbind m f) b.
Proof.
  intros Hl Hm Hf s Hi. destruct (Hm s Hi) as (a & s1 & E). unfold mbind. rewrite E. apply Hl in E as ->. apply Hf, Hi.
Qed.
Lemma opens_has i k : opens (char_has i k) true.
Proof. intros s _. unfold char_has. eauto. Qed.

(** What is known or added can be fetched. *)
Lemma opens_cached {B} i k c (f : characteristic -> B) : class_of c = k ->
  opens (let! known := char_has i k in let! _ := (if known then ret tt else char_upsert i c) in let! c := char_get i k in ret (f c)) true.
Proof.
  intros Hc s Hi. unfold mbind, char_has, ret. destruct (dict_mem char_key_eqb (s_chars s) (i, k)) eqn:E.
  - destruct (key_known _ _ _ _ _ _ Hi E) as (c' & -> & _ & _). eauto.
  - unfold char_upsert, char_get. cbn [s_chars]. rewrite Hc, (dict_get_set_same _ char_key_eqb_spec), Hc.
    destruct (cls_eqb_spec k k) as [_|n]; [|congruence]. eauto.
Qed.

Lemma keeps_report code x kw : keeps inv (report code x kw).
Proof. intros s a s' Hi E. destruct (spec_report parse_date rep docs code x kw (fun _ _ => True) (fun _ => Logic.I) s a s' Hi E) as [H _]. exact H. Qed.


Lemma opens_report code x kw b : match create code (Some x) kw with Ok _ => b = true | Raise _ => b = false end -> opens (report code x kw) b.
Proof. intros H s _. unfold report, insert. destruct (create code (Some x) kw); subst b; cbn [bind]; eauto. Qed.

Ltac created := repeat match goal with |- context [@pair str str _ ?v] => tryif is_var v then fail else (generalize v; intro) end; vm_compute; reflexivity.

Lemma opens_report_ret {A} code x kw (a : A) b : match create code (Some x) kw with Ok _ => b = true | Raise _ => b = false end ->
  opens (let! _ := report code x kw in ret a) b.
Proof.
  intros H. rewrite <- (andb_true_r b). apply opens_bind with (P := fun _ => True);
    [apply keeps_report|auto|apply opens_report, H|intros _ _ _; apply opens_ret].
Qed.

Lemma opens_entity x : opens (parse_entity x) true.
Proof.
  unfold parse_entity. destruct (find_kid (u "identifier") x) as [i|]; [|apply opens_report_ret; created].
  destruct (attr i (u "scheme")) as [sch|]; [|apply opens_report_ret; created].
  destruct (x_text i) as [id|]; [|apply opens_ret]. intros s Hi. unfold mbind, char_has, ret.
  destruct (dict_mem char_key_eqb (s_chars s) (id, ClsEntity)) eqn:E.
  - destruct (key_known _ _ _ _ _ _ Hi E) as (c' & -> & _ & _). eauto.
  - unfold char_upsert. eauto.
Qed.

Lemma name_ok t sc : exists q, qname_from_str t sc = Ok q.
Proof.
  unfold qname_from_str, qname_from_clark, qname_from_colon. destruct (re_match clark_re t); [eauto|]. destruct (re_match colon_re t); eauto.
Qed.
Lemma opens_name {B} t sc (f : qname -> M B) b : (forall q, qname_from_str t sc = Ok q -> opens (f q) b) -> opens (let! q := lift (qname_from_str t sc) in f q) b.
Proof. intros H. destruct (name_ok t sc) as (q & E). rewrite E. intros s Hi. unfold mbind, lift. apply H; assumption. Qed.
Lemma get_ok x a : is_ok (get_str_attribute x a) = given (attr x a).
Proof. unfold get_str_attribute. destruct (attr x a); reflexivity. Qed.

Lemma opens_aspect {B} n (f : str -> M B) b (known : state -> bool) :
  (forall s, inv s -> known s = true -> dict_mem str_eqb (s_aspects s) n = true) ->
  (forall a, opens (f a) b) ->
  opens (let! known := (fun s => Ok (known s, s)) in let! _ := (if known then ret tt else aspect_upsert n) in let! a := aspect_get n in f a) b.
Proof.
  intros Hk Hf s Hi. unfold mbind. destruct (known s) eqn:E; unfold ret.
  - specialize (Hk s Hi E). unfold aspect_get, dict_mem in *. destruct (dict_get str_eqb (s_aspects s) n); [|discriminate]. apply Hf, Hi.
  - destruct (aspect_upsert n s) as [[[] s1]|] eqn:E1; [|discriminate].
    assert (Hi1 : inv s1) by apply (spec_aspect_upsert parse_date rep docs n (fun _ _ => True) Logic.I s tt s1 Hi E1).
    injection E1 as <-. unfold aspect_get. cbn [s_aspects]. rewrite (dict_get_set_same _ str_eqb_spec). apply Hf, Hi1.
Qed.

Lemma opens_explicit x : occurs docs x -> plain_dimensions docs -> opens (parse_explicit rep x) (explicit_ok x).
Proof.
  intros Hx Hp. unfold parse_explicit, explicit_ok.
  replace (given (attr x (u "dimension"))) with (is_ok (get_str_attribute x (u "dimension")) && true)
    by (rewrite get_ok; destruct (attr x (u "dimension")); reflexivity).
  apply opens_lift. intros dt Ed. apply get_attr in Ed.
  apply (opens_aspect dt _ _ (fun s => dict_mem char_key_eqb (s_chars s) (dt, ClsExplicit))).
  { intros s Hi E. destruct (key_known _ _ _ _ _ _ Hi E) as (c & _ & Hc & Ho). destruct c; try discriminate.
    destruct Ho as (mt & y & E' & _). exfalso. apply (Hp x dt Hx Ed). rewrite E'. apply in_or_app. right. left. reflexivity. }
  intros asp. apply opens_name. intros dq Edq. unfold has_typed_qname.
  destruct (get_typed_by_qname is_dimension rep dq) as [dim|] eqn:Eg; cbn [is_ok negb]; [|apply opens_report_ret; created].
  assert (G : forall b, opens (match x_text x with
    | None | Some [] =>
        let! _ := report "MISSING_EXPLICIT_DIMENSION_MEMBER" x [(u "dimension", q_local dq)] in ret None
    | Some member_id =>
        let! mq := lift (qname_from_str member_id (x_scope x)) in
        if negb (has_typed_qname is_member rep mq) then
          let! _ := report "INVALID_EXPLICIT_DIMENSION_MEMBER" x
                      [(u "member", member_id); (u "dimension", dt)] in ret None
        else
          let! member := lift (get_typed_by_qname is_member rep mq) in
          let dimension_id := dt ++ u " " ++ member_id in
          let! known := char_has dimension_id ClsExplicit in
          let! _ := (if known then ret tt
                     else char_upsert dimension_id (ChExplicit dim member asp)) in
          let! c := char_get dimension_id ClsExplicit in ret (Some c)
    end) b -> opens (let! dimension := lift (Ok dim) in match x_text x with
    | None | Some [] =>
        let! _ := report "MISSING_EXPLICIT_DIMENSION_MEMBER" x [(u "dimension", q_local dq)] in ret None
    | Some member_id =>
        let! mq := lift (qname_from_str member_id (x_scope x)) in
        if negb (has_typed_qname is_member rep mq) then
          let! _ := report "INVALID_EXPLICIT_DIMENSION_MEMBER" x
                      [(u "member", member_id); (u "dimension", dt)] in ret None
        else
          let! member := lift (get_typed_by_qname is_member rep mq) in
          let dimension_id := dt ++ u " " ++ member_id in
          let! known := char_has dimension_id ClsExplicit in
          let! _ := (if known then ret tt
                     else char_upsert dimension_id (ChExplicit dimension member asp)) in
          let! c := char_get dimension_id ClsExplicit in ret (Some c)
    end) b) by (intros b H; exact H).
  apply G. clear G.
  destruct (x_text x) as [[|c m]|]; [apply opens_report_ret; created| |apply opens_report_ret; created].
  apply opens_name. intros mq _. unfold has_typed_qname.
  destruct (get_typed_by_qname is_member rep mq) as [mem|]; cbn [is_ok negb]; [|apply opens_report_ret; created].
  change true with (is_ok (Ok mem) && true). apply opens_lift. intros mem' _. apply opens_cached. reflexivity.
Qed.

Lemma opens_typed x : opens (parse_typed rep x) (typed_ok rep x).
Proof.
  unfold parse_typed, typed_ok.
  replace (match attr x (u "dimension") with Some d => _ | None => false end) with
    (is_ok (get_str_attribute x (u "dimension")) && match attr x (u "dimension") with Some d => given (meant rep is_dimension (x_scope x) d) | None => false end)
    by (rewrite get_ok; destruct (attr x (u "dimension")); reflexivity).
  apply opens_lift. intros dt Ed. apply get_attr in Ed. rewrite Ed.
  apply (opens_aspect dt _ _ (fun s => dict_mem str_eqb (s_aspects s) dt)); [auto|].
  intros asp. unfold meant.
  replace (given _) with (is_ok (qname_from_str dt (x_scope x)) && match qname_from_str dt (x_scope x) with Ok q => is_ok (get_typed_by_qname is_dimension rep q) | Raise _ => false end).
  2:{ destruct (qname_from_str dt (x_scope x)) as [q|]; [|reflexivity]. destruct (get_typed_by_qname is_dimension rep q); reflexivity. }
  apply opens_lift. intros dq Edq. rewrite Edq. unfold has_typed_qname.
  destruct (get_typed_by_qname is_dimension rep dq) as [dim|] eqn:Eg; cbn [is_ok].
  2:{ change false with (true && (is_ok (@Raise element e) && true)). apply opens_bind with (P := fun _ => True); [apply keeps_report|auto|apply opens_report; created|].
      intros _ _ _. apply opens_lift. intros a H. discriminate H. }
  change true with (true && (is_ok (Ok dim) && (true && true))). apply opens_bind with (P := fun _ => True); [intros s a s' Hi [= <- <-]; exact Hi|auto|apply opens_ret|].
  intros _ _ _. apply opens_lift. intros dim' _. apply opens_bind with (P := fun _ => True);
    [destruct (Nat.ltb 1 (length (x_kids x))); [apply keeps_report|intros s a s' Hi [= <- <-]; exact Hi]|auto|
     destruct (Nat.ltb 1 (length (x_kids x))); [apply opens_report; created|apply opens_ret]|].
  intros _ _ _. destruct (x_kids x) as [|k r]; [apply opens_report_ret; created|].
  destruct (x_text k) as [v|]; [|apply opens_report_ret; created]. apply opens_cached. reflexivity.
Qed.

Lemma tag_is_ok t x : is_ok (tag_contains t x) = given (x_tag x).
Proof. unfold tag_contains. destruct (x_tag x); reflexivity. Qed.

Lemma opens_dimensions l : (forall x, In x l -> occurs docs x) -> plain_dimensions docs -> forall c, opens (parse_dimensions rep l c) (forallb (dimension_ok rep) l).
Proof.
  intros Hl Hp. induction l as [|d l IH]; intros c; cbn [parse_dimensions forallb]; [apply opens_ret|].
  assert (Ho : occurs docs d) by (apply Hl; left; reflexivity).
  assert (IH' := IH (fun x Hx => Hl x (or_intror Hx))). clear IH. rename IH' into IH.
  replace (dimension_ok rep d && forallb (dimension_ok rep) l) with (is_ok (tag_contains (u "explicitMember") d) && (dimension_ok rep d && forallb (dimension_ok rep) l)).
  2:{ rewrite tag_is_ok. unfold dimension_ok, tag_says. destruct (x_tag d); reflexivity. }
  apply opens_lift. intros b Eb. assert (Eb' := Eb). apply tag_contains_says in Eb' as ->. unfold dimension_ok at 1. destruct (tag_says "explicitMember" d).
  - apply opens_bind with (P := fun _ => True); [|auto|apply opens_explicit; assumption|intros _ x _; apply IH].
    intros s a s' Hi E. apply (parse_explicit_spec parse_date rep docs d Ho s a s' Hi E).
  - replace (_ && forallb (dimension_ok rep) l) with (is_ok (tag_contains (u "typedMember") d) && ((if tag_says "typedMember" d then typed_ok rep d else false) && forallb (dimension_ok rep) l)).
    2:{ rewrite tag_is_ok. rewrite <- (tag_is_ok (u "explicitMember")), Eb. reflexivity. }
    apply opens_lift. intros b Eb''. apply tag_contains_says in Eb'' as ->. destruct (tag_says "typedMember" d).
    + apply opens_bind with (P := fun _ => True); [|auto|apply opens_typed|intros _ x _; apply IH].
      intros s a s' Hi E. apply (parse_typed_spec parse_date rep docs d Ho s a s' Hi E).
    + change false with (false && true). rewrite <- andb_assoc. cbn [andb]. change false with (false && true).
      apply opens_bind with (P := fun _ => True); [apply keeps_report|auto|apply opens_report; created|discriminate].
Qed.

(** *** Units *)

Lemma opens_measure x : opens (parse_measure x) true.
Proof.
  unfold parse_measure. destruct (x_text x) as [t|]; [|apply opens_report_ret; created].
  apply opens_name. intros q _. apply opens_ret.
Qed.
Lemma keeps_measure x : keeps inv (parse_measure x).
Proof. intros s a s' Hi E. apply (parse_measure_spec parse_date rep docs x s a s' Hi E). Qed.
Lemma result_measure x s a s' : parse_measure x s = Ok (a, s') -> given a = given (x_text x).
Proof. intros E. destruct (says_measure x s a s' Logic.I E) as (_ & rs & es & _ & _ & H & _). exact H. Qed.

Lemma opens_divide x id l : forall ns ds, opens (parse_divide x id l ns ds) (parts_ok l).
Proof.
  induction l as [|nd l IH]; intros ns ds; cbn [parse_divide parts_ok]; [apply opens_ret|].
  replace (given (x_tag nd) && _) with (is_ok (tag_contains (u "unitNumerator") nd) && (is_ok (tag_contains (u "unitDenominator") nd) &&
     (true && match x_kids nd with [] => false | m :: _ => if given (x_text m) then parts_ok l else true end)))
    by (rewrite !tag_is_ok; destruct (x_tag nd); reflexivity).
  apply opens_lift. intros bn _. apply opens_lift. intros bd _. apply opens_bind with (P := fun _ => True);
    [destruct (negb bn && negb bd); [apply keeps_report|intros s a s' Hi [= <- <-]; exact Hi]|auto|
     destruct (negb bn && negb bd); [apply opens_report; created|apply opens_ret]|].
  intros _ _ _. destruct (x_kids nd) as [|m r]; [intros s _; unfold fail; eauto|].
  match goal with |- opens _ ?b => change b with (true && b) end.
  apply opens_bind with (P := fun a => given a = given (x_text m)); [apply keeps_measure|intros s a s' _; apply result_measure|apply opens_measure|].
  intros _ [q|] Hq; cbn [given] in Hq; rewrite <- Hq; [|apply opens_ret]. destruct bn, bd; apply IH.
Qed.

Lemma opens_unit_body x id : opens (unit_body x id) (unit_ok x).
Proof.
  unfold unit_body, unit_ok. destruct (x_kids x) as [|k [|k' r]]; [apply opens_report_ret; created| |apply opens_report_ret; created].
  rewrite <- (tag_is_ok (u "measure")). apply opens_lift. intros b Eb. assert (Eb' := Eb). apply tag_contains_says in Eb' as ->.
  destruct (tag_says "measure" k).
  { match goal with |- opens ?m _ => change (opens m (true && true)) end. apply opens_bind with (P := fun _ => True); [apply keeps_measure|auto|apply opens_measure|].
    intros _ [q|] _; apply opens_ret. }
  match goal with |- opens _ ?b => replace b with (is_ok (tag_contains (u "divide") k) && b) end.
  2:{ rewrite tag_is_ok, <- (tag_is_ok (u "measure")), Eb. reflexivity. }
  apply opens_lift. intros b Eb'. apply tag_contains_says in Eb' as ->. destruct (tag_says "divide" k); [|apply opens_report_ret; created].
  match goal with |- opens _ ?b => change b with (true && b) end. apply opens_bind with (P := fun _ => True);
    [destruct (negb _); [apply keeps_report|intros s a s' Hi [= <- <-]; exact Hi]|auto|
     destruct (negb _); [apply opens_report; created|apply opens_ret]|].
  intros _ _ _. apply opens_bind with (P := fun a => given a = forallb part_readable (x_kids k)); [| |apply opens_divide|].
  { intros s a s' Hi E. apply (parse_divide_spec parse_date rep docs x id (x_kids k) [] [] s a s' Hi E). }
  { intros s a s' _ E. destruct (says_divide x id (x_kids k) [] [] s a s' Logic.I E) as (_ & rs & es & _ & _ & H & _). exact H. }
  intros _ [[ns ds]|] Hn; cbn [given] in Hn; rewrite <- Hn; [|apply opens_ret].
  destruct (x_kids k) as [|c [|d l]]; [intros s _; unfold fail; eauto|intros s _; unfold fail; eauto|].
  destruct (opt_eqb str_eqb (x_tag c) (x_tag d)); cbn [negb].
  - change false with (false && true). apply opens_bind with (P := fun _ => True); [apply keeps_report|auto|apply opens_report; created|discriminate].
  - change true with (true && true). apply opens_bind with (P := fun _ => True); [intros s a s' Hi [= <- <-]; exact Hi|auto|apply opens_ret|intros _ _ _; apply opens_ret].
Qed.
Lemma opens_unit x id s : attr x (u "id") = Some id -> inv s -> known s id = false ->
  if unit_ok x then exists a s', parse_unit x s = Ok (a, s') else exists e, parse_unit x s = Raise e.
Proof. intros Hid Hi Hs. rewrite (parse_unit_body x id s Hid Hs). apply opens_unit_body, Hi. Qed.

(** *** Periods *)

Lemma opens_date x : opens (get_context_date parse_date x) (date_ok parse_date x).
Proof.
  unfold get_context_date, date_ok, is_date. destruct (x_text x) as [[|c t]|]; cbn [str_opt].
  - change true with (is_ok (Ok false) && true). apply opens_lift. intros a [= <-]. apply opens_report_ret. created.
  - match goal with |- opens (let! _ := lift ?r in _) ?b => replace b with (is_ok r && true) by (destruct (parse_date (c :: t)) as [|[]]; reflexivity) end.
    apply opens_lift. intros [|] _; [apply opens_ret|apply opens_report_ret; created].
  - change true with (is_ok (Ok false) && true). apply opens_lift. intros a [= <-]. apply opens_report_ret. created.
Qed.

Lemma result_date x s a s' : get_context_date parse_date x s = Ok (a, s') -> a = if given (date_of parse_date x) then x_text x else None.
Proof. intros E. destruct (says_date parse_date free x s a s' Logic.I E) as (_ & rs & es & _ & _ & H & _). exact H. Qed.

Lemma opens_period x : opens (parse_period parse_date x) (period_ok parse_date x).
Proof.
  unfold parse_period, period_ok. destruct (find_kid (u "instant") x) as [i|].
  { unfold parse_instant_period. rewrite <- (andb_true_r (date_ok _ i)).
    apply opens_bind with (P := fun a => a = if given (date_of parse_date i) then x_text i else None);
      [apply keeps_date|intros s a s' _; apply result_date|apply opens_date|].
    intros _ a ->. destruct (date_of parse_date i) as [d|] eqn:Ed; cbn [given]; [|apply opens_ret].
    apply date_text in Ed as (c & t & -> & Ed). intros s Hi. unfold mbind, char_has, lift, ret.
    destruct (dict_mem char_key_eqb (s_chars s) ((c :: t) : str, ClsPeriod)) eqn:E.
    - destruct (key_known _ _ _ _ _ _ Hi E) as (c' & -> & _ & _). eauto.
    - unfold make_instant. rewrite (is_date_false parse_date (c :: t) d (not_eq_sym (@nil_cons _ c t)) Ed). cbn [bind]. rewrite Ed. cbn [bind]. unfold char_upsert. eauto. }
  destruct (find_kid (u "startDate") x) as [xs|]; [|apply opens_report_ret; created].
  destruct (find_kid (u "endDate") x) as [xe|]; [|apply opens_report_ret; created].
  unfold parse_duration_period. rewrite <- (andb_true_r (date_ok _ xe)).
  apply opens_bind with (P := fun a => a = if given (date_of parse_date xs) then x_text xs else None);
      [apply keeps_date|intros s a s' _; apply result_date|apply opens_date|]. intros _ a ->.
  apply opens_bind with (P := fun a => a = if given (date_of parse_date xe) then x_text xe else None);
      [apply keeps_date|intros s a s' _; apply result_date|apply opens_date|]. intros _ a ->.
  destruct (date_of parse_date xs) as [ds|] eqn:Eds; cbn [given]; [|apply opens_ret].
  apply date_text in Eds as (cs & ts & Ets & Eds). rewrite Ets.
  destruct (date_of parse_date xe) as [de|] eqn:Ede; cbn [given]; [|apply opens_ret].
  apply date_text in Ede as (ce & te & Ete & Ede). rewrite Ete.
  intros s Hi. unfold mbind, char_has.
  destruct (dict_mem char_key_eqb (s_chars s) ((u "period " ++ (cs :: ts) ++ u " " ++ ce :: te) : str, ClsPeriod)) eqn:E.
  - destruct (key_known _ _ _ _ _ _ Hi E) as (c' & -> & _ & _). unfold ret. eauto.
  - rewrite (make_duration_bad parse_date (cs :: ts) (ce :: te) ds de Eds Ede (not_eq_sym (@nil_cons _ cs ts)) (not_eq_sym (@nil_cons _ ce te))).
    destruct (date_ltb de ds).
    + revert s Hi E. assert (G : opens (let! _ := report "DURATION_PERIOD_START_AFTER_END" xs [(u "start_date", cs :: ts); (u "end_date", ce :: te)] in ret (@None characteristic)) true)
        by (apply opens_report_ret; created). intros s Hi _. apply (G s Hi).
    + unfold char_upsert, ret. eauto.
Qed.

(** *** Facts *)

Lemma opens_context x chars id : attr x (u "id") = Some id -> occurs docs x -> plain_dimensions docs ->
  opens (parse_context parse_date rep x chars) (context_ok parse_date rep x).
Proof.
  intros Hid Hx Hp. unfold parse_context, context_ok.
  match goal with |- opens _ ?b => replace b with (is_ok (get_str_attribute x (u "id")) && b) by (rewrite get_ok, Hid; reflexivity) end.
  apply opens_lift. intros id' _.
  destruct (find_kid (u "period") x) as [xp|] eqn:Ep; [|apply opens_report_ret; created].
  destruct (find_kid (u "entity") x) as [xe|] eqn:Ee; [|apply opens_report_ret; created].
  assert (Hxe : occurs docs xe) by (eapply occurs_find; eauto).
  apply opens_bind with (P := fun _ => True); [|auto|apply opens_period|].
  { intros s a s' Hi E. apply (parse_period_spec parse_date rep docs xp s a s' Hi E). }
  intros _ p _. match goal with |- opens _ ?b => change b with (true && b) end. apply opens_bind with (P := fun _ => True); [|auto|apply opens_entity|].
  { intros s a s' Hi E. apply (parse_entity_spec parse_date rep docs xe Hxe s a s' Hi E). }
  intros _ en _. destruct (find_kid (u "segment") xe) as [seg|] eqn:Es; [|apply opens_ret].
  assert (Hs : forall y, In y (x_kids seg) -> occurs docs y).
  { intros y Hy. eapply occurs_kid; [|exact Hy]. eapply occurs_find; eauto. }
  rewrite <- (andb_true_r (forallb _ _)). apply opens_bind with (P := fun _ => True); [|auto|apply opens_dimensions; assumption|intros _ c _; apply opens_ret].
  intros s a s' Hi E. match type of E with parse_dimensions rep _ ?c s = _ => apply (parse_dimensions_spec parse_date rep docs (x_kids seg) c Hs s a s' Hi E) end.
Qed.

Lemma opens_value x c e : get_characteristic c a_concept = Some (ChConcept e) -> opens (parse_fact nillable x c) true.
Proof.
  intros Hc. unfold parse_fact. rewrite Hc.
  match goal with |- opens ?m _ => change (opens m (true && (true && (true && true)))) end. apply opens_bind with (P := fun _ => True); [|auto| |].
  - destruct (x_text x); [intros s0 a s1 Hi [= <- <-]; exact Hi|]. intros s a s' Hi E. apply bind_inv in E as ([] & s1 & E & [= <- <-]).
    destruct (nillable e); [injection E as <-; exact Hi|eapply keeps_report; eassumption].
  - destruct (x_text x); [apply opens_ret|]. match goal with |- opens ?m _ => change (opens m (true && true)) end. apply opens_bind with (P := fun _ => True); [|auto| |intros _ _ _; apply opens_ret].
    + destruct (nillable e); [intros s a s' Hi [= <- <-]; exact Hi|apply keeps_report].
    + destruct (nillable e); [apply opens_ret|apply opens_report; created].
  - intros _ v _. apply opens_bind with (P := fun _ => True); [|auto| |].
    + destruct (get_characteristic c a_unit); [|intros s a s' Hi [= <- <-]; exact Hi].
      destruct (attr x (u "unitRef")) as [[|]|]; try (intros s a s' Hi [= <- <-]; exact Hi). match goal with |- context [if ?b then _ else _] => destruct b end; [intros s a s' Hi [= <- <-]; exact Hi|apply keeps_report].
    + destruct (get_characteristic c a_unit); [|apply opens_ret].
      destruct (attr x (u "unitRef")) as [[|]|]; try apply opens_ret. match goal with |- context [if ?b then _ else _] => destruct b end; [apply opens_ret|apply opens_report; created].
    + intros _ _ _. apply opens_bind with (P := fun _ => True); [|auto| |].
      * match goal with |- context [if ?b then _ else _] => destruct b end; [intros s a s' Hi [= <- <-]; exact Hi|apply keeps_report].
      * match goal with |- context [if ?b then _ else _] => destruct b end; [apply opens_ret|apply opens_report; created].
      * intros _ _ _ s Hi. unfold fact_upsert. eauto.
Qed.

Hypothesis Hunit : one_unit docs.
Hypothesis Hconcept : one_concept rep docs.
Hypothesis Hplain : plain_periods docs.
Hypothesis Hword : no_period_word parse_date.
Hypothesis Hdims : plain_dimensions docs.

Definition units_ok (K : list str) : Prop :=
  forall id, In id K -> exists j xu, In j docs /\ find_by_id (u "unit") id j = Some xu /\ unit_ok xu = true.

Lemma units_ok_more K i x : In i docs -> units_ok K -> fact_ok parse_date rep i x = true -> units_ok (K ++ makes_known rep i x).
Proof.
  intros Hi HK Hok id Hin. apply in_app_or in Hin as [Hin|Hin]; [apply HK, Hin|]. unfold makes_known in Hin. unfold fact_ok in Hok.
  destruct (fact_concept rep x); [|destruct Hin]. unfold unit_ref in *. destruct (attr x (u "unitRef")) as [[|c r]|]; [destruct Hin| |destruct Hin].
  destruct (find_by_id (u "unit") (c :: r) i) as [xu|] eqn:Ef; [|destruct Hin]. apply andb_true_iff in Hok as [Hok _].
  destruct (unit_readable xu); [|destruct Hin]. destruct Hin as [<-|[]]. exists i, xu. auto.
Qed.

(** Whether the unit of a fact element can be read. *)
Definition fact_unit_ok (i x : xml) : bool :=
  match unit_ref i x with UNone => true | UUnknown _ => false | UElement _ xu => unit_ok xu end.

Lemma opens_fact_unit i x K s : In i docs -> inv s -> knows docs K s -> units_ok K ->
  if fact_unit_ok i x then exists r s', fact_unit i x s = Ok (r, s') else exists e, fact_unit i x s = Raise e.
Proof.
  intros Hi Hinv HK HU. unfold fact_unit_ok, fact_unit, unit_ref. destruct (attr x (u "unitRef")) as [[|c r]|]; [unfold ret; eauto| |unfold ret; eauto].
  generalize (c :: r). clear c r. intros id. destruct (find_by_id (u "unit") id i) as [xu|] eqn:Ef.
  2:{ revert s Hinv HK. assert (G : opens (let! _ := report "XML_INVALID_FACT_UNIT_ID" x [(u "unit_id", id)] in ret (@None (list characteristic))) false)
        by (apply opens_report_ret; created). intros s Hinv _. exact (G s Hinv). }
  destruct (find_by_id_some _ _ _ _ Ef) as [_ Hid]. unfold mbind, char_has.
  change (dict_mem char_key_eqb (s_chars s) (id, ClsUnit)) with (known s id).
  destruct (known s id) eqn:Ek.
  - assert (Hok : unit_ok xu = true).
    { rewrite (proj1 HK id) in Ek. apply existsb_exists in Ek as (k & Hin & E). apply str_eqb_eq in E as <-. destruct (HU id Hin) as (j & xu' & Hj & Hf & Hr).
      rewrite <- (Hunit j i id xu' xu Hj Hi Hf Ef). exact Hr. }
    rewrite Hok. destruct (key_known _ _ _ _ _ _ Hinv Ek) as (c & Eg & _ & _). unfold ret. rewrite Eg. eauto.
  - assert (G := opens_unit xu id s Hid Hinv Ek). destruct (unit_ok xu).
    + destruct G as (new & s1 & E). rewrite E. destruct new as [ch|]; unfold ret; [|eauto].
      destruct (parse_unit_spec parse_date rep docs xu id Hid s _ s1 Hinv E) as (_ & _ & es & _ & (ns & ds & _ & ->) & _).
      unfold char_upsert, char_get. cbn [class_of s_chars]. rewrite (dict_get_set_same _ char_key_eqb_spec). cbn [class_of cls_eqb]. eauto.
    + destruct G as (e & E). unfold mbind. rewrite E. eauto.
Qed.

Lemma bind_ok {A B} (m : M A) (f : A -> M B) s a s1 : m s = Ok (a, s1) -> mbind m f s = f a s1.
Proof. unfold mbind. intros ->. reflexivity. Qed.
Lemma bind_raise {A B} (m : M A) (f : A -> M B) s e : m s = Raise e -> mbind m f s = Raise e.
Proof. unfold mbind. intros ->. reflexivity. Qed.

Lemma opens_fact_element i x K s : In i docs -> In x (fact_elements i) -> inv s -> knows docs K s -> units_ok K ->
  if fact_ok parse_date rep i x then exists s', parse_fact_element parse_date rep nillable i x s = Ok (tt, s')
  else exists e, parse_fact_element parse_date rep nillable i x s = Raise e.
Proof.
  intros Hi Hx Hinv HK HU.
  assert (Ho : occurs docs x).
  { exists i. split; [exact Hi|]. apply filter_In in Hx as [Hx _]. exact Hx. }
  unfold parse_fact_element, fact_ok, fact_concept, meant, fact_tag.
  destruct (name_ok (str_opt (x_tag x)) (x_scope x)) as (q & Eq). rewrite Eq.
  rewrite (bind_ok (lift (Ok q)) _ s q s eq_refl). unfold has_typed_qname.
  destruct (get_typed_by_qname is_concept rep q) as [e|] eqn:Ee; cbn [is_ok negb].
  2:{ revert s Hinv HK. assert (G : opens (report "XML_FACT_INVALID_CONCEPT" x [(u "concept_name", str_opt (x_tag x))]) true) by (apply opens_report; created).
      intros s Hinv _. destruct (G s Hinv) as ([] & s' & E). eauto. }
  assert (Hown : concept_exact rep x e) by (split; [reflexivity|]; exists q; auto).
  destruct (runs_concept parse_date rep docs x e s Hinv Ho Hown) as (cc & s1 & E1 & Hinv1 & _ & _ & e1 & ->).
  destruct (says_concept rep x s (ChConcept e1) s1 Logic.I E1) as (S1 & _).
  assert (HK1 : knows docs K s1) by (eapply knows_same; eassumption).
  rewrite (bind_ok _ _ _ _ _ E1). clear E1.
  assert (G := opens_fact_unit i x K s1 Hi Hinv1 HK1 HU). unfold fact_unit_ok in G.
  match goal with |- if ?b then _ else _ => replace b with (match unit_ref i x with UNone => true | UUnknown _ => false | UElement _ xu => unit_ok xu end &&
    match unit_ref i x with UNone => body_ok parse_date rep i x | UUnknown _ => false | UElement _ xu => if unit_readable xu then body_ok parse_date rep i x else true end)
    by (destruct (unit_ref i x); reflexivity) end.
  match goal with H : if ?b then _ else _ |- _ => destruct b end; cbn [andb].
  2:{ destruct G as (e' & E). rewrite (bind_raise _ _ _ _ E). eauto. }
  destruct G as (us & s2 & E2). rewrite (bind_ok _ _ _ _ _ E2).
  destruct (fact_unit_spec parse_date rep docs i x Hi s1 us s2 Hinv1 E2) as (Hinv2 & _ & es2 & _ & Hus & _).
  destruct (fact_unit_says parse_date rep docs Hunit i x K s1 us s2 Hi Hinv1 HK1 E2) as (_ & rs2 & es2' & _ & _ & HR).
  assert (Hgiven : match unit_ref i x with UNone => body_ok parse_date rep i x | UUnknown _ => false | UElement _ xu => if unit_readable xu then body_ok parse_date rep i x else true end =
    match us with Some _ => body_ok parse_date rep i x | None => match unit_ref i x with UUnknown _ => false | _ => true end end).
  { destruct (unit_ref i x) as [|id|id xu]; [destruct HR as (-> & _); reflexivity|destruct HR as (-> & _); reflexivity|].
    destruct HR as (H & _). destruct us; cbn [given] in H; rewrite <- H; reflexivity. }
  rewrite Hgiven. clear Hgiven.
  destruct us as [us|].
  2:{ destruct (unit_ref i x) as [|id|id xu] eqn:Er; [unfold ret; eauto| |unfold ret; eauto].
      exfalso. assert (G := opens_fact_unit i x K s1 Hi Hinv1 HK1 HU). unfold fact_unit_ok in G. rewrite Er in G. destruct G as (e' & E'). congruence. }
  unfold body_ok. unfold get_str_attribute. destruct (attr x (u "contextRef")) as [cid|]; [|eexists; reflexivity].
  rewrite (bind_ok (lift (Ok cid)) _ s2 cid s2 eq_refl).
  destruct (find_by_id (u "context") cid i) as [xc|] eqn:Ef.
  2:{ assert (G : opens (report "XML_INVALID_FACT_CONTEXT_ID" x [(u "context_id", cid)]) false) by (apply opens_report; created).
      destruct (G s2 Hinv2) as (e' & E). eauto. }
  assert (Hxc : occurs docs xc) by (eapply occurs_by_id; eauto). destruct (find_by_id_some _ _ _ _ Ef) as [_ Hid].
  assert (G := opens_context xc (ChConcept e1 :: us) cid Hid Hxc Hdims s2 Hinv2).
  destruct (context_ok parse_date rep xc).
  2:{ destruct G as (e' & E). rewrite (bind_raise _ _ _ _ E). eauto. }
  destruct G as (cx & s3 & E3). rewrite (bind_ok _ _ _ _ _ E3). destruct cx as [cx|]; [|unfold ret; eauto].
  destruct (parse_context_spec parse_date rep docs xc (ChConcept e1 :: us) Hxc s2 _ s3 Hinv2 E3) as (Hinv3 & _ & es3 & _ & Hcx & _).
  destruct Hcx as (id & xp & xe & p & en & ds & _ & _ & _ & _ & _ & _ & Hcx).
  assert (Hgc : get_characteristic cx a_concept = Some (ChConcept e1)) by (rewrite Hcx; apply first_concept).
  destruct (opens_value x cx e1 Hgc s3 Hinv3) as ([] & s' & E). eauto.
Qed.

Lemma opens_elements i xs : In i docs -> incl xs (fact_elements i) -> forall K s, inv s -> knows docs K s -> units_ok K ->
  if forallb (fact_ok parse_date rep i) xs then exists s', for_each (parse_fact_element parse_date rep nillable i) xs s = Ok (tt, s') /\
    inv s' /\ knows docs (known_after rep K (map (pair i) xs)) s' /\ units_ok (known_after rep K (map (pair i) xs))
  else exists e, for_each (parse_fact_element parse_date rep nillable i) xs s = Raise e.
Proof.
  intros Hi. induction xs as [|x xs IH]; intros Hin K s Hs HK HU; cbn [for_each map known_after forallb].
  - exists s. split; [reflexivity|]. auto.
  - assert (G := opens_fact_element i x K s Hi (Hin x (or_introl eq_refl)) Hs HK HU). unfold mbind.
    destruct (fact_ok parse_date rep i x) eqn:Eok; cbn [andb].
    + destruct G as (s1 & E). rewrite E.
      destruct (fact_element_says parse_date rep nillable docs Hunit Hconcept Hplain Hword i x K s s1 Hi (Hin x (or_introl eq_refl)) Hs HK E) as (Hs1 & HK1 & _).
      apply (IH (fun y Hy => Hin y (or_intror Hy)) _ s1 Hs1 HK1). apply units_ok_more; assumption.
    + destruct G as (e & E). rewrite E. eauto.
Qed.

Lemma facts_open s : inv s -> knows docs [] s ->
  ((exists s', parse_facts parse_date rep nillable docs s = Ok (tt, s')) <->
   (forall i x, In (i, x) (all_fact_elements docs) -> fact_ok parse_date rep i x = true)).
Proof.
  unfold parse_facts, all_fact_elements.
  assert (G : forall l, incl l docs -> forall K s, inv s -> knows docs K s -> units_ok K ->
    if forallb (fun i => forallb (fact_ok parse_date rep i) (fact_elements i)) l then
      exists s', for_each (fun i => for_each (parse_fact_element parse_date rep nillable i) (fact_elements i)) l s = Ok (tt, s')
    else exists e, for_each (fun i => for_each (parse_fact_element parse_date rep nillable i) (fact_elements i)) l s = Raise e).
  { clear s. induction l as [|i l IH]; intros Hsub K s Hs HK HU; cbn [for_each forallb]; [unfold ret; eauto|].
    assert (G := opens_elements i (fact_elements i) (Hsub i (or_introl eq_refl)) (incl_refl _) K s Hs HK HU). unfold mbind.
    destruct (forallb (fact_ok parse_date rep i) (fact_elements i)); cbn [andb].
    - destruct G as (s1 & E & H1 & H2 & H3). rewrite E. apply (IH (fun y Hy => Hsub y (or_intror Hy)) _ s1 H1 H2 H3).
    - destruct G as (e & E). rewrite E. eauto. }
  intros Hs HK. specialize (G docs (incl_refl _) [] s Hs HK (fun id H => match H with end)).
  assert (Ha : forallb (fun i => forallb (fact_ok parse_date rep i) (fact_elements i)) docs = true <->
    (forall i x, In (i, x) (flat_map (fun i => map (pair i) (fact_elements i)) docs) -> fact_ok parse_date rep i x = true)).
  { rewrite forallb_forall. split.
    - intros H i x Hin. apply in_flat_map in Hin as (j & Hj & Hin). apply in_map_iff in Hin as (y & [= -> ->] & Hy).
      specialize (H i Hj). rewrite forallb_forall in H. apply H, Hy.
    - intros H i Hi. apply forallb_forall. intros x Hx. apply H. apply in_flat_map. exists i. split; [exact Hi|]. apply in_map, Hx. }
  rewrite <- Ha. destruct (forallb _ docs).
  - split; [reflexivity|intros _; exact G].
  - split; [|discriminate]. intros (s' & E). destruct G as (e & E'). congruence.
Qed.
End Opens.
