(** Proofs about the structure of inline documents and about all steps together (C64, C66, C67). *)
From Verif Require Import Base Regex PyNum NumModel DateModel QNameModel QNameProofs ErrBase ErrTable ErrModel
  CtxModel CtxSpec CtxProofs CtxParseProofs InlineModel InlineSpec InlineProofs InlineStepProofs
  InlineReportSpec InlineReportProofs InlineHeadSpec.
From Verif Require CtxReportSpec CtxReportProofs InlineHeadProofs.

Local Opaque u create.

(** ** Headers *)

Lemma check_head_cases h :
  ix_of h = None /\ raises (check_head h) \/ ix_of h <> None /\ does (check_head h) tt (head_problems h).
Proof.
  unfold ix_of, head_problems, check_head, ix_of.
  destruct (dict_get key_eqb (x_scope h) (Some (u "ix"))) as [uri|].
  - right. split; [discriminate|].
    assert (F : forall l, find (has_tag (to_clark uri (u "header"))) l =
      match filter (has_tag (to_clark uri (u "header"))) l with [] => None | k :: _ => Some k end).
    { induction l as [|y l IH]; cbn; [reflexivity|]. destruct (has_tag _ y); [reflexivity|exact IH]. }
    rewrite F. destruct (filter _ _) as [|k r]; [apply does_ret|].
    destruct (x_kids k) as [|k0 ks]; cbn; [apply does_ret|]. apply does_report, mk_head.
  - left. split; [reflexivity|]. intros s. exists SyntaxError. reflexivity.
Qed.

Definition pick (kids : list xml) : collected :=
  Collected (filter (is_named (u "ix:hidden")) kids) (filter (is_named (u "ix:resources")) kids)
            (filter (is_named (u "ix:references")) kids).
Lemma plus_assoc a b c : plus (plus a b) c = plus a (plus b c).
Proof. unfold plus. cbn. rewrite <- !app_assoc. reflexivity. Qed.
Lemma plus_nothing c : plus c nothing = c.
Proof. destruct c. unfold plus. cbn. rewrite !app_nil_r. reflexivity. Qed.
Lemma nothing_plus c : plus nothing c = c.
Proof. destruct c. reflexivity. Qed.
Lemma pick_app a b : pick (a ++ b) = plus (pick a) (pick b).
Proof. unfold pick, plus. cbn. rewrite !filter_app. reflexivity. Qed.

Lemma names_differ : str_eqb (u "ix:hidden") (u "ix:resources") = false /\
  str_eqb (u "ix:hidden") (u "ix:references") = false /\ str_eqb (u "ix:resources") (u "ix:references") = false.
Proof. Local Transparent u. repeat split; vm_compute; reflexivity. Local Opaque u. Qed.

Lemma pick_one k n : tag_name k = Ok n ->
  pick [k] = if str_eqb n (u "ix:hidden") then Collected [k] [] []
             else if str_eqb n (u "ix:resources") then Collected [] [k] []
             else if str_eqb n (u "ix:references") then Collected [] [] [k] else nothing.
Proof.
  intros E. unfold pick. cbn. rewrite !(is_named_ok _ _ _ E). destruct names_differ as (H1 & H2 & H3).
  destruct (str_eqb_spec n (u "ix:hidden")) as [->|]; [rewrite H1, H2; reflexivity|].
  destruct (str_eqb_spec n (u "ix:resources")) as [->|]; [rewrite H3; reflexivity|].
  destruct (str_eqb n (u "ix:references")); reflexivity.
Qed.

Lemma header_children_does h kids : (forall k, In k kids -> ~ is_comment k) -> forall c,
  does (header_children h kids c) (plus c (pick kids))
    (repeat_problem ("IXBRL_INVALID_HEADER_CHILD"%string, Some h)
       (filter (fun k => negb (named_one_of header_kids k)) kids)).
Proof.
  induction kids as [|k r IH]; intros Hk c; cbn [header_children].
  { eapply does_eq; [apply does_ret| |reflexivity]. symmetry. apply (plus_nothing c). }
  destruct (tag_name_cases k) as [[Hc _]|[_ [n E]]]; [destruct (Hk k (or_introl eq_refl) Hc)|].
  eapply does_lift; [exact E|].
  assert (IH' := IH (fun y H => Hk y (or_intror H))). clear IH.
  assert (Hp := pick_one k n E).
  assert (Hr : forall c, plus c (pick (k :: r)) = plus (plus c (pick [k])) (pick r)).
  { intros c0. rewrite plus_assoc, <- pick_app. reflexivity. }
  rewrite Hr, Hp. cbn [filter]. unfold named_one_of at 1. cbn [header_kids existsb].
  rewrite !(is_named_ok _ _ _ E).
  destruct (str_eqb n (u "ix:hidden")) eqn:E1; [apply IH'|].
  destruct (str_eqb n (u "ix:resources")) eqn:E2; [apply IH'|].
  destruct (str_eqb n (u "ix:references")) eqn:E3; [apply IH'|].
  cbn [orb negb repeat_problem map]. rewrite plus_nothing.
  eapply does_eq; [eapply does_bind; [apply does_report, mk_child|apply IH']|reflexivity|reflexivity].
Qed.
Lemma header_children_raises h kids : (exists k, In k kids /\ is_comment k) -> forall c,
  raises (header_children h kids c).
Proof.
  induction kids as [|k r IH]; intros (y & Hy & Hc) c; [destruct Hy|]. cbn [header_children].
  destruct (tag_name_cases k) as [[_ E]|[Hn [n E]]]; rewrite E; [apply raises_lift|].
  eapply raises_lift_ok; [reflexivity|].
  assert (IH' : forall c, raises (header_children h r c)).
  { apply IH. destruct Hy as [<-|Hy]; [contradiction|]. eauto. }
  destruct (str_eqb n (u "ix:hidden")); [apply IH'|]. destruct (str_eqb n (u "ix:resources")); [apply IH'|].
  destruct (str_eqb n (u "ix:references")); [apply IH'|].
  eapply raises_right; [apply does_report, mk_child|apply IH'].
Qed.

Lemma parse_header_does h : (forall k, In k (x_kids h) -> ~ is_comment k) ->
  does (parse_header h) (pick (x_kids h)) (header_problems h).
Proof.
  intros Hk. unfold parse_header, header_problems.
  assert (Hn : forall t, kids_named t [h] = filter (is_named (u t)) (x_kids h)).
  { intros t. unfold kids_named. cbn [flat_map]. rewrite app_nil_r. reflexivity. }
  rewrite !Hn.
  eapply does_bind; [eapply does_eq; [apply header_children_does, Hk|apply nothing_plus|reflexivity]|].
  eapply does_bind; [apply does_when, does_report, mk_hiddens|].
  eapply does_eq; [eapply does_bind; [apply does_when, does_report, mk_resources|apply does_ret]|reflexivity|].
  apply app_nil_r.
Qed.

Lemma collect_does {A} (f : A -> M collected) (g : A -> collected) (p : A -> list problem) l :
  (forall a, In a l -> does (f a) (g a) (p a)) -> forall c,
  does (collect f l c) (fold_left plus (map g l) c) (flat_map p l).
Proof.
  induction l as [|a l IH]; intros H c; cbn; [apply does_ret|].
  eapply does_bind; [apply H; left; reflexivity|]. apply IH. intros b Hb. apply H. right. exact Hb.
Qed.
Lemma collect_raises {A} (f : A -> M collected) (g : A -> collected) (p : A -> list problem) (bad : A -> Prop) l :
  (forall a, In a l -> bad a /\ raises (f a) \/ ~ bad a /\ does (f a) (g a) (p a)) ->
  (exists a, In a l /\ bad a) -> forall c, raises (collect f l c).
Proof.
  induction l as [|a l IH]; intros H (b & Hb & Hbad) c; [destruct Hb|]. cbn.
  destruct (H a (or_introl eq_refl)) as [[_ Hr]|[Hn Hd]]; [apply raises_left, Hr|].
  eapply raises_right; [exact Hd|]. apply IH; [intros d Hd'; apply H; right; exact Hd'|].
  destruct Hb as [<-|Hb]; [contradiction|]. exists b. auto.
Qed.

Lemma fold_plus_pick {A} (ks : A -> list xml) l : forall c,
  fold_left plus (map (fun a => pick (ks a)) l) c = plus c (pick (flat_map ks l)).
Proof.
  induction l as [|a l IH]; intros c; cbn [map fold_left flat_map].
  - symmetry. apply plus_nothing.
  - rewrite IH, pick_app, plus_assoc. reflexivity.
Qed.

Definition has_comment (x : xml) : Prop := exists k, In k (x_kids x) /\ is_comment k.
Lemma comment_dec k : is_comment k \/ ~ is_comment k.
Proof. unfold is_comment. destruct (x_tag k); [right; discriminate|left; reflexivity]. Qed.
Lemma has_comment_dec x : has_comment x \/ ~ has_comment x.
Proof.
  unfold has_comment. induction (x_kids x) as [|k r IH]; [right; intros (k & [] & _)|].
  destruct (comment_dec k) as [H|H]; [left; exists k; cbn; auto|].
  destruct IH as [(y & Hy & Hc)|Hn]; [left; exists y; cbn; auto|].
  right. intros (y & [<-|Hy] & Hc); [contradiction|]. apply Hn. eauto.
Qed.
Lemma exists_dec {A} (P : A -> Prop) l : (forall a, In a l -> P a \/ ~ P a) ->
  (exists a, In a l /\ P a) \/ ~ (exists a, In a l /\ P a).
Proof.
  induction l as [|a l IH]; intros H; [right; intros (a & [] & _)|].
  destruct (H a (or_introl eq_refl)) as [Ha|Ha]; [left; exists a; cbn; auto|].
  destruct IH as [(y & Hy & Hc)|Hn]; [intros b Hb; apply H; right; exact Hb|left; exists y; cbn; auto|].
  right. intros (y & [<-|Hy] & Hc); [contradiction|]. apply Hn. eauto.
Qed.

Definition root_fatal (r : xml) : Prop :=
  (exists h, In h (heads_of r) /\ ix_of h = None) \/
  (exists h k, In h (headers_of r) /\ In k (x_kids h) /\ is_comment k).
Lemma parse_root_cases r :
  root_fatal r /\ raises (let! _ := check_no_header_element_in_head r in collect parse_header (headers_of r) nothing) \/
  ~ root_fatal r /\
  does (let! _ := check_no_header_element_in_head r in collect parse_header (headers_of r) nothing)
    (pick (flat_map x_kids (headers_of r)))
    (flat_map head_problems (heads_of r) ++ flat_map header_problems (headers_of r)).
Proof.
  destruct (exists_dec (fun h => ix_of h = None) (heads_of r)) as [H1|H1].
  { intros h _. destruct (ix_of h); [right; discriminate|left; reflexivity]. }
  { left. split; [left; exact H1|]. apply raises_left. unfold check_no_header_element_in_head.
    eapply raises_for with (p := head_problems) (bad := fun h => ix_of h = None); [|exact H1].
    intros h _. destruct (check_head_cases h); auto. }
  assert (D1 : does (check_no_header_element_in_head r) tt (flat_map head_problems (heads_of r))).
  { apply does_for. intros h Hh. destruct (check_head_cases h) as [[E _]|[_ H]]; [|exact H].
    destruct H1. eauto. }
  assert (Hc : forall h, In h (headers_of r) ->
    has_comment h /\ raises (parse_header h) \/ ~ has_comment h /\ does (parse_header h) (pick (x_kids h)) (header_problems h)).
  { intros h _. destruct (has_comment_dec h) as [H|H]; [left|right]; split; auto.
    - unfold parse_header. apply raises_left, header_children_raises, H.
    - apply parse_header_does. intros k Hk Hcm. apply H. exists k. auto. }
  destruct (exists_dec has_comment (headers_of r)) as [H2|H2]; [intros h _; apply has_comment_dec| |].
  - left. split; [right; destruct H2 as (h & Hh & k & Hk & Hcm); eauto|].
    eapply raises_right; [exact D1|]. eapply collect_raises; [exact Hc|exact H2].
  - right. split.
    { intros [H|(h & k & Hh & Hk & Hcm)]; [contradiction|]. apply H2. exists h. split; [exact Hh|]. exists k. auto. }
    eapply does_bind; [exact D1|].
    eapply does_eq; [apply collect_does with (p := header_problems) (g := fun h => pick (x_kids h))| |reflexivity].
    + intros h Hh. destruct (Hc h Hh) as [[H _]|[_ H]]; [|exact H]. destruct H2. eauto.
    + rewrite fold_plus_pick, nothing_plus. reflexivity.
Qed.

Lemma flat_map_flat_map {A B C} (f : A -> list B) (g : B -> list C) l :
  flat_map g (flat_map f l) = flat_map (fun a => flat_map g (f a)) l.
Proof. induction l as [|a l IH]; cbn; [reflexivity|]. rewrite flat_map_app, IH. reflexivity. Qed.

Lemma length_empty {A} (l : list A) : Nat.eqb (length l) 0 = is_empty l.
Proof. destruct l; reflexivity. Qed.

Lemma parse_headers_cases roots :
  headers_fatal roots /\ raises (parse_headers roots) \/
  ~ headers_fatal roots /\
  does (parse_headers roots) (pick (flat_map x_kids (all_headers roots))) (headers_problems roots).
Proof.
  destruct (exists_dec root_fatal roots) as [H|H].
  { intros r _. destruct (parse_root_cases r) as [[H _]|[H _]]; auto. }
  - left. split; [exact H|]. unfold parse_headers. apply raises_left.
    eapply collect_raises; [|exact H]. intros r _. apply parse_root_cases.
  - right. split; [exact H|]. unfold parse_headers, headers_problems.
    eapply does_bind with (a := pick (flat_map x_kids (all_headers roots))).
    { eapply does_eq; [apply collect_does with (g := fun r => pick (flat_map x_kids (headers_of r)))
        (p := fun r => flat_map head_problems (heads_of r) ++ flat_map header_problems (headers_of r))| |reflexivity].
      - intros r Hr. destruct (parse_root_cases r) as [[Hf _]|[_ Hd]]; [destruct H; eauto|exact Hd].
      - rewrite (fold_plus_pick (fun r => flat_map x_kids (headers_of r))), nothing_plus.
        unfold all_headers. rewrite flat_map_flat_map. reflexivity. }
    rewrite !length_empty.
    eapply does_bind; [apply does_when, does_report_plain, mk_no_header|].
    eapply does_eq; [eapply does_bind; [apply does_when, does_report_plain, mk_no_resources|apply does_ret]|reflexivity|].
    apply app_nil_r.
Qed.

(** ** References, resources and hidden elements *)

Lemma named_one_of_ok ts x n : tag_name x = Ok n -> named_one_of ts x = mem n (map u ts).
Proof.
  intros E. unfold named_one_of, mem. induction ts as [|t ts IH]; cbn; [reflexivity|].
  rewrite (is_named_ok _ _ _ E), IH. reflexivity.
Qed.
Lemma named_one_of_comment ts x : is_comment x -> named_one_of ts x = false.
Proof.
  intros E. unfold named_one_of. induction ts as [|t ts IH]; cbn; [reflexivity|].
  unfold is_named at 1. rewrite (tag_name_none x E). exact IH.
Qed.

Definition bad_reference (k : xml) : Prop := is_comment k \/ named_one_of reference_kids k = false.
Lemma check_reference_cases k :
  bad_reference k /\ raises (check_reference k) \/ ~ bad_reference k /\ does (check_reference k) tt [].
Proof.
  unfold bad_reference, check_reference.
  destruct (tag_name_cases k) as [[Hc E]|[Hn [n E]]]; rewrite E.
  - left. split; [auto|]. apply raises_lift.
  - rewrite (named_one_of_ok _ _ _ E). change (map u reference_kids) with [u "link:schemaRef"; u "link:linkbaseRef"].
    destruct (mem n [u "link:schemaRef"; u "link:linkbaseRef"]) eqn:Em.
    + right. split; [intros [H|H]; [contradiction|discriminate]|].
      eapply does_lift; [reflexivity|]. rewrite Em. apply does_ret.
    + left. split; [auto|]. eapply raises_lift_ok; [reflexivity|]. rewrite Em. cbn [negb when].
      apply raises_report, no_ref_child.
Qed.

Lemma bad_reference_dec k : bad_reference k \/ ~ bad_reference k.
Proof. destruct (check_reference_cases k) as [[H _]|[H _]]; auto. Qed.

Lemma flat_map_nil {A B} (l : list A) : flat_map (fun _ => @nil B) l = [].
Proof. induction l; auto. Qed.

Lemma check_references_cases l :
  (exists k, In k l /\ bad_reference k) /\ raises (for_each check_reference l) \/
  ~ (exists k, In k l /\ bad_reference k) /\ does (for_each check_reference l) tt [].
Proof.
  destruct (exists_dec bad_reference l) as [H|H]; [intros k _; apply bad_reference_dec| |].
  - left. split; [exact H|]. eapply raises_for with (p := fun _ => []); [|exact H].
    intros k _. apply check_reference_cases.
  - right. split; [exact H|]. eapply does_eq; [apply does_for with (p := fun _ => [])|reflexivity|apply flat_map_nil].
    intros k Hk. destruct (check_reference_cases k) as [[Hb _]|[_ Hd]]; [destruct H; eauto|exact Hd].
Qed.

Lemma take_ids x taken : take x taken = ids_of [x] ++ taken.
Proof. unfold take, ids_of. cbn. destruct (attr x (u "id")); reflexivity. Qed.

Fixpoint takes (l : list xml) (taken : list str) : list str :=
  match l with [] => taken | x :: r => takes r (take x taken) end.

Lemma parse_references_cases l : forall taken,
  references_fatal l /\ raises (parse_references l taken) \/
  ~ references_fatal l /\ does (parse_references l taken) (takes l taken) (references_problems taken l).
Proof.
  induction l as [|x r IH]; intros taken.
  { right. split; [intros (x & k & [] & _)|apply does_ret]. }
  cbn [parse_references takes references_problems].
  assert (D1 : does (match attr x (u "id") with
                     | Some id => let! _ := check_taken x taken id in ret (id :: taken)
                     | None => ret taken
                     end) (take x taken)
     (problem_if (existsb (fun i => existsb (str_eqb i) taken) (ids_of [x]))
        ("IXBRL_DUPLICATE_ELEMENT_ID"%string, Some x))).
  { unfold take, ids_of. cbn [flat_map]. destruct (attr x (u "id")) as [id|]; [|apply does_ret].
    cbn [app existsb]. rewrite orb_false_r.
    eapply does_eq; [eapply does_bind; [apply does_when, does_report, mk_dup|apply does_ret]|reflexivity|].
    apply app_nil_r. }
  assert (D2 : does (when (Nat.eqb (length (x_kids x)) 0) (report "IXBRL_REFERENCES_ELEMENT_WITHOUT_CHILDREN" x []))
     tt (problem_if (is_empty (x_kids x)) ("IXBRL_REFERENCES_ELEMENT_WITHOUT_CHILDREN"%string, Some x))).
  { rewrite length_empty. apply does_when, does_report, mk_empty_ref. }
  destruct (check_references_cases (x_kids x)) as [[(k & Hk & Hb) Hr]|[Hn D3]].
  { left. split; [exists x, k; cbn; auto|]. eapply raises_right; [exact D1|]. eapply raises_right; [exact D2|].
    apply raises_left, Hr. }
  destruct (IH (take x taken)) as [[(y & k & Hy & Hk) Hr]|[Hf D4]].
  { left. split; [exists y, k; cbn; auto|]. eapply raises_right; [exact D1|]. eapply raises_right; [exact D2|].
    eapply raises_right; [exact D3|exact Hr]. }
  right. split.
  { intros (y & k & [<-|Hy] & Hk & Hb); [apply Hn; exists k; auto|apply Hf; exists y, k; auto]. }
  rewrite take_ids in D4 at 3.
  eapply does_bind; [exact D1|]. eapply does_bind; [exact D2|].
  change (references_problems (ids_of [x] ++ taken) r) with ([] ++ references_problems (ids_of [x] ++ taken) r).
  eapply does_bind; [exact D3|exact D4].
Qed.

Definition sort_resources (kids : list xml) (c : resources) : resources :=
  fold_left (fun c k => match tag_name k with
                        | Ok t => match add_resource t k c with Some c' => c' | None => c end
                        | Raise _ => c
                        end) kids c.

Lemma add_resource_none t k c : add_resource t k c = None <-> mem t (map u resource_kids) = false.
Proof.
  unfold add_resource. change (map u resource_kids) with
    [u "ix:relationship"; u "link:roleRef"; u "link:arcroleRef"; u "xbrli:context"; u "xbrli:unit"].
  unfold mem. cbn [existsb].
  repeat (destruct (str_eqb t _); [cbn [orb]; rewrite ?orb_true_r; split; discriminate|]). cbn. split; auto.
Qed.

Lemma parse_resource_does x kids : (forall k, In k kids -> ~ is_comment k) -> forall c,
  does (parse_resource x kids c) (sort_resources kids c)
    (repeat_problem ("IXBRL_INVALID_RESOURCES_CHILD"%string, Some x)
       (filter (fun k => negb (named_one_of resource_kids k)) kids)).
Proof.
  induction kids as [|k r IH]; intros Hk c; cbn [parse_resource]; [apply does_ret|].
  assert (IH' := IH (fun y H => Hk y (or_intror H))). clear IH.
  destruct (tag_name_cases k) as [[Hc _]|[_ [n E]]]; [destruct (Hk k (or_introl eq_refl) Hc)|].
  unfold sort_resources. cbn [fold_left filter].
  change (fold_left _ r) with (sort_resources r). rewrite (named_one_of_ok _ _ _ E), E.
  eapply does_lift; [reflexivity|].
  destruct (add_resource n k c) as [c'|] eqn:Ea.
  - destruct (mem n (map u resource_kids)) eqn:Em; [apply IH'|].
    apply (add_resource_none n k c) in Em. congruence.
  - apply add_resource_none in Ea. rewrite Ea. cbn [negb repeat_problem map].
    eapply does_eq; [eapply does_bind; [apply does_report, mk_resource_child|apply IH']|reflexivity|reflexivity].
Qed.
Lemma parse_resource_raises x kids : (exists k, In k kids /\ is_comment k) -> forall c,
  raises (parse_resource x kids c).
Proof.
  induction kids as [|k r IH]; intros (y & Hy & Hc) c; [destruct Hy|]. cbn [parse_resource].
  destruct (tag_name_cases k) as [[_ E]|[Hn [n E]]]; rewrite E; [apply raises_lift|].
  eapply raises_lift_ok; [reflexivity|].
  assert (IH' : forall c, raises (parse_resource x r c)).
  { apply IH. destruct Hy as [<-|Hy]; [contradiction|]. eauto. }
  destruct (add_resource n k c); [apply IH'|]. eapply raises_right; [apply does_report, mk_resource_child|apply IH'].
Qed.
Lemma parse_resources_cases l : forall c,
  resources_fatal l /\ raises (parse_resources l c) \/
  ~ resources_fatal l /\ does (parse_resources l c) (sort_resources (flat_map x_kids l) c) (resources_problems l).
Proof.
  induction l as [|x r IH]; intros c.
  { right. split; [intros (x & k & [] & _)|apply does_ret]. }
  cbn [parse_resources resources_problems flat_map].
  destruct (has_comment_dec x) as [(k & Hk & Hc)|Hn].
  { left. split; [exists x, k; cbn; auto|]. apply raises_left, parse_resource_raises. eauto. }
  assert (D := parse_resource_does x (x_kids x) (fun k Hk Hc => Hn (ex_intro _ k (conj Hk Hc))) c).
  destruct (IH (sort_resources (x_kids x) c)) as [[(y & k & Hy & Hk) Hr]|[Hf D2]].
  { left. split; [exists y, k; cbn; auto|]. eapply raises_right; [exact D|exact Hr]. }
  right. split.
  { intros (y & k & [<-|Hy] & Hk & Hb); [apply Hn; exists k; auto|apply Hf; exists y, k; auto]. }
  eapply does_bind; [exact D|]. eapply does_eq; [exact D2| |reflexivity].
  unfold sort_resources. rewrite fold_left_app. reflexivity.
Qed.

Lemma resource_names : forall a b, In a resource_kids -> In b resource_kids -> str_eqb (u a) (u b) = String.eqb a b.
Proof.
  Local Transparent u.
  intros a b Ha Hb. cbn in Ha, Hb.
  repeat destruct Ha as [<-|Ha]; try contradiction; repeat destruct Hb as [<-|Hb]; try contradiction;
    vm_compute; reflexivity.
  Local Opaque u.
Qed.

Lemma sort_contexts kids : forall c,
  r_contexts (sort_resources kids c) = r_contexts c ++ filter (is_named (u "xbrli:context")) kids /\
  r_units (sort_resources kids c) = r_units c ++ filter (is_named (u "xbrli:unit")) kids.
Proof.
  unfold sort_resources. induction kids as [|k r IH]; intros c; cbn [fold_left filter].
  { rewrite !app_nil_r. auto. }
  destruct (tag_name k) as [n|e] eqn:E.
  2:{ unfold is_named. rewrite E. apply IH. }
  rewrite !(is_named_ok _ _ _ E).
  destruct (IH (match add_resource n k c with Some c' => c' | None => c end)) as [-> ->].
  assert (R := resource_names). unfold add_resource.
  assert (I : forall a, In a resource_kids <-> In a
    ["ix:relationship"; "link:roleRef"; "link:arcroleRef"; "xbrli:context"; "xbrli:unit"]%string)
    by (intros; reflexivity).
  repeat match goal with
  | |- context [if str_eqb n (u ?a) then _ else _] =>
      destruct (str_eqb_spec n (u a)) as [->|];
      rewrite ?(R a "xbrli:context"%string), ?(R a "xbrli:unit"%string) by (cbn; auto 7);
      cbn [String.eqb Ascii.eqb Bool.eqb r_contexts r_units]; rewrite <- ?app_assoc; cbn [app]; auto
  end.
Qed.

Definition bad_hidden (k : xml) : Prop :=
  is_comment k \/ named_one_of (hidden_kids ++ unsupported_kids) k = false.
Lemma check_hidden_cases x k :
  bad_hidden k /\ raises (check_hidden x k) \/
  ~ bad_hidden k /\ does (check_hidden x k) tt
    (problem_if (named_one_of unsupported_kids k) ("IXBRL_ELEMENT_NOT_SUPPORTED"%string, Some x)).
Proof.
  unfold bad_hidden, check_hidden.
  destruct (tag_name_cases k) as [[Hc E]|[Hn [n E]]]; rewrite E.
  { left. split; [auto|]. apply raises_lift. }
  rewrite !(named_one_of_ok _ _ _ E), map_app.
  change (map u hidden_kids) with [u "ix:footnote"; u "ix:nonFraction"; u "ix:nonNumeric"].
  change (map u unsupported_kids) with [u "ix:fraction"; u "ix:tuple"].
  assert (Ma : mem n ([u "ix:footnote"; u "ix:nonFraction"; u "ix:nonNumeric"] ++ [u "ix:fraction"; u "ix:tuple"]) =
     mem n [u "ix:footnote"; u "ix:nonFraction"; u "ix:nonNumeric"] || mem n [u "ix:fraction"; u "ix:tuple"])
    by (unfold mem; apply existsb_app).
  rewrite Ma. clear Ma.
  destruct (mem n [u "ix:footnote"; u "ix:nonFraction"; u "ix:nonNumeric"]) eqn:E1.
  - right. split; [intros [H|H]; [contradiction|discriminate]|]. eapply does_lift; [reflexivity|]. rewrite E1.
    assert (E2 : mem n [u "ix:fraction"; u "ix:tuple"] = false).
    { apply mem_In in E1. apply not_true_iff_false. rewrite mem_In. Local Transparent u.
      intros H2. cbn in E1, H2. repeat destruct E1 as [<-|E1]; try contradiction; repeat destruct H2 as [H2|H2];
        try contradiction; vm_compute in H2; discriminate. Local Opaque u. }
    rewrite E2. apply does_ret.
  - destruct (mem n [u "ix:fraction"; u "ix:tuple"]) eqn:E2.
    + right. split; [intros [H|H]; [contradiction|discriminate]|]. eapply does_lift; [reflexivity|]. rewrite E1, E2.
      apply does_report, mk_unsupported.
    + left. split; [auto|]. eapply raises_lift_ok; [reflexivity|]. rewrite E1, E2. apply raises_report, no_hidden_child.
Qed.

Lemma flat_map_if {A} (f : A -> bool) (p : problem) l :
  flat_map (fun k => problem_if (f k) p) l = repeat_problem p (filter f l).
Proof. induction l as [|a l IH]; cbn; [reflexivity|]. rewrite IH. destruct (f a); reflexivity. Qed.

Lemma validate_hidden_cases l :
  hidden_fatal l /\ raises (validate_hidden l) \/
  ~ hidden_fatal l /\ does (validate_hidden l) tt (hidden_problems l).
Proof.
  assert (H1 : forall x, (exists k, In k (x_kids x) /\ bad_hidden k) /\ raises (for_each (check_hidden x) (x_kids x)) \/
    ~ (exists k, In k (x_kids x) /\ bad_hidden k) /\
    does (for_each (check_hidden x) (x_kids x)) tt
      (repeat_problem ("IXBRL_ELEMENT_NOT_SUPPORTED"%string, Some x) (filter (named_one_of unsupported_kids) (x_kids x)))).
  { intros x. destruct (exists_dec bad_hidden (x_kids x)) as [H|H].
    - intros k _. destruct (check_hidden_cases x k) as [[H _]|[H _]]; auto.
    - left. split; [exact H|]. eapply raises_for; [|exact H]. intros k _. apply (check_hidden_cases x k).
    - right. split; [exact H|]. rewrite <- flat_map_if. apply does_for. intros k Hk.
      destruct (check_hidden_cases x k) as [[Hb _]|[_ Hd]]; [destruct H; eauto|exact Hd]. }
  unfold validate_hidden, hidden_problems.
  destruct (exists_dec (fun x => exists k, In k (x_kids x) /\ bad_hidden k) l) as [H|H].
  - intros x _. destruct (H1 x) as [[H _]|[H _]]; auto.
  - left. split; [destruct H as (x & Hx & k & Hk & Hb); exists x, k; auto|].
    eapply raises_for; [|exact H]. intros x _. apply (H1 x).
  - right. split; [intros (x & k & Hx & Hk & Hb); apply H; eauto|].
    apply does_for. intros x Hx. destruct (H1 x) as [[Hb _]|[_ Hd]]; [destruct H; eauto|exact Hd].
Qed.

(** ** All steps together *)

Lemma origin_mono pd rp docs docs' k c : incl docs docs' -> origin pd rp docs k c -> origin pd rp docs' k c.
Proof.
  intros Hi. assert (Ho : forall y, occurs docs y -> occurs docs' y) by (intros y (i & H & Hd); exists i; auto).
  destruct c; cbn [origin].
  - intros (y & Hy & H). exists y. auto.
  - intros (E & y & Hy & H). split; [exact E|]. exists y. auto.
  - auto.
  - intros (j & Hj & H). exists j. auto.
  - intros (mt & y & E & Hy & H). exists mt, y. auto.
  - intros (y & E & Hy & H). exists y. auto.
Qed.
Lemma inv_mono pd rp docs docs' s : incl docs docs' -> inv pd rp docs s -> inv pd rp docs' s.
Proof.
  intros Hi [H1 H2]. split; [|exact H2]. intros k cl c H. destruct (H1 k cl c H) as [Ho Hc].
  split; [eapply origin_mono; eauto|exact Hc].
Qed.

Lemma no_units_yet pd rp l s i : inv pd rp [holding l] s -> dict_get char_key_eqb (s_chars s) (i, ClsUnit) = None.
Proof.
  intros [H _]. destruct (dict_get char_key_eqb (s_chars s) (i, ClsUnit)) as [c|] eqn:E; [|reflexivity].
  destruct (H _ _ _ E) as [Ho Hc]. destruct c; try discriminate Hc. destruct Ho as (j & [<-|[]] & xu & ns & ds & Hf & _).
  discriminate Hf.
Qed.

Lemma reports_all (ks : list (string * xml * list (str * str))) : forall s s',
  for_each (fun e => report (fst (fst e)) (snd (fst e)) (snd e)) ks s = Ok (tt, s') ->
  exists es, s' = with_errors s es /\
    Forall2 (fun k e => create (fst (fst k)) (Some (snd (fst k))) (snd k) = Ok e) ks es.
Proof.
  induction ks as [|k ks IH]; intros s s'; cbn [for_each].
  { intros [= <-]. exists []. rewrite with_nil. auto. }
  unfold mbind. destruct (report _ _ _ s) as [[[] s1]|] eqn:E; [|discriminate].
  intros E'. destruct (IH _ _ E') as (es & -> & H). unfold report in E.
  destruct (insert _ _ _ _) as [es1|] eqn:Ei; [|discriminate]. injection E as <-.
  apply insert_create in Ei as (e & Ec & ->). exists (e :: es). split; [|constructor; assumption].
  unfold with_errors. cbn. rewrite <- app_assoc. reflexivity.
Qed.

(** Errors are only added. *)
Definition adds {A} (m : M A) : Prop := forall s a s', m s = Ok (a, s') -> exists es, s_errors s' = s_errors s ++ es.
Lemma adds_same {A} (m : M A) : (forall s a s', m s = Ok (a, s') -> s_errors s' = s_errors s) -> adds m.
Proof. intros H s a s' E. exists []. rewrite app_nil_r. eapply H, E. Qed.
Lemma adds_ret {A} (a : A) : adds (ret a).
Proof. apply adds_same. intros s b s' [= <- <-]. reflexivity. Qed.
Lemma adds_lift {A} (r : res A) : adds (lift r).
Proof. apply adds_same. intros s b s'. unfold lift. destruct r; [intros [= <- <-]; reflexivity|discriminate]. Qed.
Lemma adds_fail {A} e : adds (@fail A e).
Proof. intros s a s' [=]. Qed.
Lemma adds_report code x kw : adds (report code x kw).
Proof.
  intros s a s'. unfold report. destruct (insert _ _ _ _) as [es|] eqn:E; [|discriminate]. intros [= <- <-].
  apply insert_create in E as (e & _ & ->). exists [e]. reflexivity.
Qed.
Lemma adds_bind {A B} (m : M A) (f : A -> M B) : adds m -> (forall a, adds (f a)) -> adds (let! a := m in f a).
Proof.
  intros Hm Hf s b s'. unfold mbind. destruct (m s) as [[a s1]|] eqn:E; [|discriminate]. intros E'.
  destruct (Hm _ _ _ E) as [es1 H1]. destruct (Hf _ _ _ _ E') as [es2 H2].
  exists (es1 ++ es2). rewrite H2, H1, app_assoc. reflexivity.
Qed.
Lemma adds_when b m : adds m -> adds (when b m).
Proof. intros H. destruct b; [exact H|apply adds_ret]. Qed.
Lemma adds_for {A} (f : A -> M unit) l : (forall a, adds (f a)) -> adds (for_each f l).
Proof. intros H. induction l; cbn; [apply adds_ret|]. apply adds_bind; auto. Qed.
Lemma adds_upsert k c : adds (char_upsert k c).
Proof. apply adds_same. intros s b s' [= <- <-]. reflexivity. Qed.

Ltac adds := repeat (first
  [ apply adds_bind | apply adds_when | apply adds_report | apply adds_ret | apply adds_lift | apply adds_fail
  | apply adds_upsert | apply adds_for
  | match goal with
    | |- forall _, _ => intro
    | |- adds (if ?b then _ else _) => destruct b
    | |- adds (match ?x with _ => _ end) => destruct x
    | |- adds (let '(_, _) := ?x in _) => destruct x
    end ]).

Lemma adds_units x tag : adds (find_units x tag).
Proof.
  unfold find_units. destruct (attr x (u "unitRef")) as [[|c0 id]|]; [adds| |adds].
  intros s a s'. destruct (char_get _ _ s) as [[c s1]|e] eqn:E.
  - intros [= <- <-]. unfold char_get in E. destruct (dict_get _ _ _) as [c1|]; [|discriminate].
    destruct (cls_eqb _ _); [|discriminate]. injection E as <- <-. exists []. rewrite app_nil_r. reflexivity.
  - destruct e; [|discriminate..]. apply (adds_bind _ _ (adds_report _ _ _) (fun _ => adds_ret _)).
Qed.
Lemma adds_context rp cs x tag : adds (fact_context rp cs x tag).
Proof. unfold fact_context. adds. apply adds_units. Qed.
Lemma adds_number pf n c t : adds (parse_non_fraction pf n c t).
Proof. unfold parse_non_fraction, check_taken, number_attribute, check_parent, report_all. adds. Qed.
Lemma adds_text ev n c t : adds (parse_non_numeric ev n c t).
Proof. unfold parse_non_numeric, check_taken, report_all. adds. Qed.
Lemma adds_facts rp pf ev cs l : forall last taken fr, adds (parse_facts rp pf ev cs l last taken fr).
Proof.
  induction l as [|n l IH]; intros last taken fr; cbn [parse_facts]; [apply adds_ret|].
  apply adds_bind; [apply adds_lift|intros tag]. apply adds_bind; [apply adds_context|intros [c|]]; [|apply IH].
  apply adds_bind.
  { destruct (str_eqb tag _); [apply adds_bind; [apply adds_text|intros; apply adds_ret]|].
    destruct (str_eqb tag _); [apply adds_bind; [apply adds_number|intros; apply adds_ret]|apply adds_ret]. }
  intros [[f t]|]; [apply IH|]. destruct last; [apply IH|apply adds_fail].
Qed.
Lemma parse_facts_errors rp pf ev cs l last taken fr s a s' :
  parse_facts rp pf ev cs l last taken fr s = Ok (a, s') -> exists rest, s_errors s' = s_errors s ++ rest.
Proof. apply adds_facts. Qed.

Section All.
Variable parse_date : str -> res date.
Variable rep : repository.
Variable py_float : str -> option bool.
Variable era_valid : list (part * str) -> res bool.
Variable kont : list str -> option (list (string * xml * list (str * str)) * list str).

Record reading (docs : list document) (taken : list str) (cs : contexts) (fr : ifacts) (errors : list (error xml))
  (osc : list (option context * list (error xml))) (osu : list (option characteristic * list (error xml)))
  (osf : list (option ifact * list (error xml))) (tu tk : list str)
  (e1 e2 e3 e6 e7 : list (error xml)) : Prop := {
  rd_headers : ~ headers_fatal (map d_root (instances docs)) /\
    Forall2 made (headers_problems (map d_root (instances docs))) e1;
  rd_references : ~ references_fatal (doc_references docs) /\
    Forall2 made (references_problems [] (doc_references docs)) e2;
  rd_resources : ~ resources_fatal (doc_resources docs) /\ Forall2 made (resources_problems (doc_resources docs)) e3;
  rd_contexts : exists tc, contexts_found parse_date rep [holding (doc_contexts docs)] (doc_contexts docs)
      (takes (doc_references docs) []) osc tc /\ units_read (doc_units docs) tc osu tu;
  rd_hidden : ~ hidden_fatal (doc_hidden docs) /\ Forall2 made (hidden_problems (doc_hidden docs)) e6;
  rd_kont : exists ks, kont tu = Some (ks, tk) /\
    Forall2 (fun k e => create (fst (fst k)) (Some (snd (fst k))) (snd k) = Ok e) ks e7;
  rd_cs : cs = fold_left add_context (somes (map fst osc)) [];
  rd_facts : (forall n, In n (doc_facts docs) -> conventional n) ->
    facts_found rep py_float era_valid (fun i => last_unit i (somes (map fst osu))) cs (doc_facts docs) tk osf taken /\
    fr = fold_left ifacts_upsert (somes (map fst osf)) no_facts;
  rd_errors : (forall n, In n (doc_facts docs) -> conventional n) ->
    errors = e1 ++ e2 ++ e3 ++ concat (map snd osc) ++ concat (map snd osu) ++ e6 ++ e7 ++ concat (map snd osf);
  rd_reports : (forall n, In n (doc_facts docs) -> conventional n) ->
    Forall2 made (elements_problems rep py_float era_valid (fun i => given (last_unit i (somes (map fst osu))))
      (fun i => given (dict_get str_eqb cs i)) tk (doc_facts docs)) (concat (map snd osf)) /\
    forall n, In n (doc_facts docs) -> ~ element_fatal rep era_valid cs n;
  rd_before : exists rest,
    errors = e1 ++ e2 ++ e3 ++ concat (map snd osc) ++ concat (map snd osu) ++ e6 ++ e7 ++ rest;
  rd_heads : (no_period_word parse_date ->
      (forall x xp, In x (doc_contexts docs) -> find_kid (u "period") x = Some xp -> plain_period xp) ->
      Forall2 CtxReportSpec.made (contexts_reports parse_date rep (takes (doc_references docs) []) [] (doc_contexts docs)) (concat (map snd osc))) /\
    exists tc, contexts_found parse_date rep [holding (doc_contexts docs)] (doc_contexts docs) (takes (doc_references docs) []) osc tc /\
      Forall2 CtxReportSpec.made (units_reports tc [] (doc_units docs)) (concat (map snd osu)) }.

Lemma kids_named_pick (docs : list document) :
  pick (flat_map x_kids (all_headers (map d_root (instances docs)))) =
  Collected (doc_hidden docs) (doc_resources docs) (doc_references docs).
Proof. reflexivity. Qed.

Theorem parse_inline_all docs r taken cs fr s :
  parse_inline parse_date rep py_float era_valid kont docs empty_state = Ok ((r, (taken, cs, fr)), s) ->
  r = sort_resources (flat_map x_kids (doc_resources docs)) no_resources /\
  exists osc osu osf tu tk e1 e2 e3 e6 e7,
    reading docs taken cs fr (s_errors s) osc osu osf tu tk e1 e2 e3 e6 e7.
Proof.
  unfold parse_inline.
  assert (OK : forall A B (m : M A) (f : A -> M B) a st st', m st = Ok (a, st') -> mbind m f st = f a st')
    by (intros A B m f a st st' E; unfold mbind; rewrite E; reflexivity).
  assert (NO : forall A B (m : M A) (f : A -> M B) st b, mbind m f st = Ok b ->
    exists a st', m st = Ok (a, st') /\ f a st' = Ok b).
  { intros A B m f st b. unfold mbind. destruct (m st) as [[a st']|]; [|discriminate]. eauto. }
  change (filter (fun d => is_instance (d_root d)) docs) with (instances docs).
  set (roots := map d_root (instances docs)). intros H.
  destruct (parse_headers_cases roots) as [[_ Hr]|[N1 D1]].
  { apply NO in H as (a & st & H & _). destruct (Hr empty_state) as [e He]. discriminate (eq_trans (eq_sym He) H). }
  destruct (D1 empty_state) as (e1 & E1 & F1). rewrite (OK _ _ _ _ _ _ _ E1) in H. clear D1 E1.
  unfold roots in H at 1. rewrite kids_named_pick in H. cbn [h_hidden h_resources h_references] in H.
  destruct (parse_references_cases (doc_references docs) []) as [[_ Hr]|[N2 D2]].
  { apply NO in H as (a & st & H & _). destruct (Hr (with_errors empty_state e1)) as [e He]. discriminate (eq_trans (eq_sym He) H). }
  destruct (D2 (with_errors empty_state e1)) as (e2 & E2 & F2). rewrite (OK _ _ _ _ _ _ _ E2), with_app in H. clear D2 E2.
  destruct (parse_resources_cases (doc_resources docs) no_resources) as [[_ Hr]|[N3 D3]].
  { apply NO in H as (a & st & H & _). destruct (Hr (with_errors empty_state (e1 ++ e2))) as [e He]. discriminate (eq_trans (eq_sym He) H). }
  destruct (D3 (with_errors empty_state (e1 ++ e2))) as (e3 & E3 & F3).
  rewrite (OK _ _ _ _ _ _ _ E3), with_app in H. clear D3 E3.
  destruct (sort_contexts (flat_map x_kids (doc_resources docs)) no_resources) as [X1 X2]. rewrite X1, X2 in H. clear X1 X2.
  cbn [no_resources r_contexts r_units app] in H.
  change (filter (is_named (u "xbrli:context")) (flat_map x_kids (doc_resources docs))) with (doc_contexts docs) in H.
  change (filter (is_named (u "xbrli:unit")) (flat_map x_kids (doc_resources docs))) with (doc_units docs) in H.
  set (s0 := with_errors empty_state ((e1 ++ e2) ++ e3)) in H.
  set (docs0 := [holding (doc_contexts docs)]).
  assert (I0 : inv parse_date rep docs0 s0) by apply inv_empty.
  apply NO in H as ([tc cs0] & s1 & Ec & H).
  destruct (parse_contexts_step parse_date rep docs0 (doc_contexts docs)
    (fun x H => holding_occurs _ x H) _ _ s0 _ s1 I0 Ec) as (I1 & ec & Hec & osc & Hosc & -> & Hcs).
  assert (Sc : no_period_word parse_date ->
      (forall x xp, In x (doc_contexts docs) -> find_kid (u "period") x = Some xp -> plain_period xp) ->
      Forall2 CtxReportSpec.made (contexts_reports parse_date rep (takes (doc_references docs) []) [] (doc_contexts docs)) (concat (map snd osc))).
  { intros Hw Hp. destruct (InlineHeadProofs.says_contexts parse_date rep docs0 (doc_contexts docs) Hw (fun x H => holding_occurs _ x H)
      (fun x H xp Hx => Hp x xp H Hx) _ [] [] (fun i => eq_refl) s0 _ s1 I0 Ec) as (_ & rs & es' & He' & Hm & ->).
    rewrite Hec in He'. apply app_inv_head in He'. rewrite <- He' in Hm. exact Hm. }
  cbn [fst snd] in *. subst cs0. clear Ec.
  set (docs1 := holding (doc_contexts docs) :: map alone (doc_units docs)).
  assert (I1' : inv parse_date rep docs1 s1).
  { eapply inv_mono; [|exact I1]. intros y [<-|[]]. left. reflexivity. }
  apply NO in H as (tu & s2 & Eu & H).
  destruct (parse_units_sem parse_date rep docs1 (doc_units docs)
    (fun x H => or_intror (in_map alone _ x H)) tc s1 tu s2 I1' Eu) as (osu & Hosu & I2 & Heu & Hget).
  assert (Su : Forall2 CtxReportSpec.made (units_reports tc [] (doc_units docs)) (concat (map snd osu))).
  { assert (K1 : InlineHeadProofs.knows_just [] s1).
    { intros i. unfold CtxReportProofs.known, dict_mem. rewrite (no_units_yet _ _ _ _ i I1). reflexivity. }
    destruct (InlineHeadProofs.units_say (doc_units docs) tc [] s1 tu s2 K1 Eu) as (es' & He' & Hm).
    rewrite Heu in He'. apply app_inv_head in He'. rewrite <- He' in Hm. exact Hm. }
  clear Eu.
  destruct (validate_hidden_cases (doc_hidden docs)) as [[_ Hr]|[N6 D6]].
  { apply NO in H as (a & st & H & _). destruct (Hr s2) as [e He]. discriminate (eq_trans (eq_sym He) H). }
  destruct (D6 s2) as (e6 & E6 & F6). rewrite (OK _ _ _ _ _ _ _ E6) in H. clear D6 E6.
  apply NO in H as (tk & s3' & Ek & H).
  unfold check_continuations in Ek. destruct (kont tu) as [[ks tk']|] eqn:Ekt; [|discriminate].
  apply NO in Ek as ([] & st & Ef & Ek). injection Ek as -> ->.
  destruct (reports_all _ _ _ Ef) as (e7 & -> & F7). clear Ef. rewrite with_app in H.
  apply NO in H as ([tf fr0] & s4 & Epf & H). change (flat_map fact_nodes (instances docs)) with (doc_facts docs) in Epf.
  set (s3 := with_errors s2 (e6 ++ e7)) in Epf. cbn [fst snd] in H. injection H as Hr <- <- <- <-.
  set (cs := fold_left add_context (somes (map fst osc)) []) in *.
  assert (U : forall i c, last_unit i (somes (map fst osu)) = Some c -> class_of c = ClsUnit).
  { intros i c E. assert (L := last_unit_spec i (somes (map fst osu))). rewrite E in L.
    destruct L as (pre & post & _ & [H _] & _). exact H. }
  assert (J3 : forall i, dict_get char_key_eqb (s_chars s3) (i, ClsUnit) = last_unit i (somes (map fst osu))).
  { intros i. unfold s3. cbn [with_errors s_chars]. rewrite Hget, (no_units_yet _ _ _ _ i I1).
    destruct (last_unit i _); reflexivity. }
  assert (E3 : s_errors s3 = e1 ++ e2 ++ e3 ++ concat (map snd osc) ++ concat (map snd osu) ++ e6 ++ e7).
  { unfold s3. cbn [with_errors s_errors]. rewrite Heu, Hec. unfold s0. cbn. rewrite <- !app_assoc. reflexivity. }
  assert (P : (forall n, In n (doc_facts docs) -> conventional n) -> exists osf,
    facts_found rep py_float era_valid (fun i => last_unit i (somes (map fst osu))) cs (doc_facts docs) tk osf tf /\
    fr0 = fold_left ifacts_upsert (somes (map fst osf)) no_facts /\
    s_errors s4 = s_errors s3 ++ concat (map snd osf) /\
    Forall2 made (elements_problems rep py_float era_valid (fun i => given (last_unit i (somes (map fst osu))))
      (fun i => given (dict_get str_eqb cs i)) tk (doc_facts docs)) (concat (map snd osf)) /\
    forall n, In n (doc_facts docs) -> ~ element_fatal rep era_valid cs n).
  { intros Hc. destruct (parse_facts_step rep py_float era_valid _ U cs (doc_facts docs) Hc None tk no_facts s3 _ s4 J3 Epf)
      as (_ & es & He & osf & Hosf & -> & Hfr). exists osf.
    destruct (parse_facts_made rep py_float era_valid _ U cs (doc_facts docs) Hc None tk no_facts s3 _ s4 J3 Epf)
      as (_ & es & He' & Hm & Hn). rewrite He in He'. apply app_inv_head in He'. subst es. auto. }
  assert (G : exists rest, s_errors s4 = s_errors s3 ++ rest).
  { eapply parse_facts_errors. exact Epf. }
  assert (X : exists osf, (forall n, In n (doc_facts docs) -> conventional n) ->
    facts_found rep py_float era_valid (fun i => last_unit i (somes (map fst osu))) cs (doc_facts docs) tk osf tf /\
    fr0 = fold_left ifacts_upsert (somes (map fst osf)) no_facts /\
    s_errors s4 = s_errors s3 ++ concat (map snd osf) /\
    Forall2 made (elements_problems rep py_float era_valid (fun i => given (last_unit i (somes (map fst osu))))
      (fun i => given (dict_get str_eqb cs i)) tk (doc_facts docs)) (concat (map snd osf)) /\
    forall n, In n (doc_facts docs) -> ~ element_fatal rep era_valid cs n).
  { assert (Dc : forall n, In n (doc_facts docs) -> ~ conventional n \/ ~ ~ conventional n).
    { intros n _. unfold conventional. destruct (tag_name (n_el n)) as [t|].
      - destruct (str_eqb_spec t (u "ix:nonNumeric")) as [->|H1]; [right; auto|].
        destruct (str_eqb_spec t (u "ix:nonFraction")) as [->|H2]; [right; auto|].
        left. intros [H|H]; congruence.
      - left. intros [H|H]; discriminate. }
    destruct (exists_dec (fun n => ~ conventional n) (doc_facts docs) Dc) as [(n & Hn & Hc)|Hno].
    - exists []. intros H. destruct (Hc (H n Hn)).
    - destruct P as (osf & H).
      + intros n Hn. unfold conventional in *. destruct (tag_name (n_el n)) as [t|] eqn:Et.
        * destruct (str_eqb_spec t (u "ix:nonNumeric")) as [->|H1]; [auto|].
          destruct (str_eqb_spec t (u "ix:nonFraction")) as [->|H2]; [auto|].
          exfalso. apply Hno. exists n. split; [exact Hn|]. intros [H|H]; rewrite Et in H; congruence.
        * exfalso. apply Hno. exists n. split; [exact Hn|]. intros [H|H]; rewrite Et in H; discriminate.
      + exists osf. intros _. exact H. }
  destruct X as (osf & X). destruct G as (rest & G). split; [symmetry; exact Hr|].
  exists osc, osu, osf, tu, tk, e1, e2, e3, e6, e7. constructor; auto.
  - exists tc. auto.
  - exists ks. auto.
  - intros H. destruct (X H) as (X1 & X2 & _). auto.
  - intros H. destruct (X H) as (_ & _ & X3 & _). rewrite X3, E3, <- !app_assoc. reflexivity.
  - intros H. destruct (X H) as (_ & _ & _ & X4). exact X4.
  - exists rest. rewrite G, E3, <- !app_assoc. reflexivity.
  - split; [exact Sc|]. exists tc. auto.
Qed.
Theorem parse_all docs taken cs fr s :
  parse_facts_xhtml parse_date rep py_float era_valid kont docs empty_state = Ok (taken, cs, fr, s) ->
  exists osc osu osf tu tk e1 e2 e3 e6 e7,
    reading docs taken cs fr (s_errors s) osc osu osf tu tk e1 e2 e3 e6 e7.
Proof.
  unfold parse_facts_xhtml, mbind. destruct (parse_inline _ _ _ _ _ docs empty_state) as [[[r [[a b] c]] s']|] eqn:E; [|discriminate].
  cbn. intros H. injection H as <- <- <- <-. exact (proj2 (parse_inline_all _ _ _ _ _ _ E)).
Qed.
End All.
