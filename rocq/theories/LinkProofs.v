(** Lemmas about links, resources and labels. *)
From Verif Require Import Base Regex QNameModel ErrBase ErrTable ErrModel CtxModel InlineModel NetModel NetSpec NetProofs NetLinkProofs NetProps
  LangModel DtsProofs LinkModel LinkSpec.
Local Open Scope nat_scope.

Lemma bind_ok {A B} (r : res A) (f : A -> res B) b : (do! x <- r ; f x) = Ok b <-> exists a, r = Ok a /\ f a = Ok b.
Proof. destruct r as [v|e]; cbn; split; [eauto|intros (a & [= ->] & H); exact H|discriminate|intros (a & [=] & _)]. Qed.

(** ** Attributes *)

Lemma key_spec (a b : option str) : reflect (a = b) (key_eqb a b).
Proof. destruct a, b; cbn; try (constructor; congruence). destruct (str_eqb_spec s s0); constructor; congruence. Qed.

Lemma prefixed_colon s sc c : re_match clark_re s = None -> re_match colon_re s = Some c -> cap c 1 = u "xlink" ->
  qname_from_str s sc = Ok (QName (str_opt (dict_get key_eqb sc (Some (u "xlink")))) (u "xlink") (cap c 2)).
Proof.
  intros H1 H2 H3. unfold qname_from_str, qname_from_colon. rewrite H1, H2. rewrite H3.
  rewrite (dict_get_set_other _ key_spec) by discriminate. reflexivity.
Qed.
Definition xlink_names : list string := ["type"; "label"; "role"; "href"; "from"; "to"; "arcrole"]%string.
Lemma xlink_names_re name : In name xlink_names ->
  re_match clark_re (u "xlink:" ++ u name) = None /\
  exists c, re_match colon_re (u "xlink:" ++ u name) = Some c /\ cap c 1 = u "xlink" /\ cap c 2 = u name.
Proof.
  intros H. repeat destruct H as [<-|H]; [..|destruct H]; (split; [vm_compute; reflexivity|]);
    (eexists; split; [vm_compute; reflexivity|split; vm_compute; reflexivity]).
Qed.
Lemma attr_xlink x name : In name xlink_names -> usual x -> attr_prefixed x (u "xlink:" ++ u name) = Ok (xl name x).
Proof.
  intros Hn Hu. destruct (xlink_names_re name Hn) as (H1 & c & H2 & H3 & H4). unfold attr_prefixed.
  rewrite (prefixed_colon _ (x_scope x) c H1 H2 H3). cbn [bind]. unfold usual in Hu. rewrite Hu, H4. reflexivity.
Qed.
Lemma required_xlink x name v : In name xlink_names -> usual x -> (required x (u "xlink:" ++ u name) = Ok v <-> xl name x = Some v).
Proof.
  intros Hn Hu. unfold required. rewrite (attr_xlink x name Hn Hu). cbn [bind]. destruct (xl name x); split; congruence.
Qed.

(** ** Elements inside others *)

Fixpoint xml_ind' (P : xml -> Prop) (H : forall t a s x ks, Forall P ks -> P (Xml t a s x ks)) (x : xml) : P x :=
  match x with
  | Xml t a s tx ks => H t a s tx ks ((fix go l : Forall P l := match l with [] => Forall_nil _ | k :: r => Forall_cons _ (xml_ind' P H k) (go r) end) ks)
  end.

Lemma inside_trans top out x around k around' : inside top out x around -> inside x around k around' -> inside top out k around'.
Proof. intros H. induction 1; [eapply inside_more; eauto|eapply inside_more; [exact IHinside|assumption]]. Qed.

Lemma inner_eq above x : inner above x = flat_map (fun k => (k, x :: above) :: inner (x :: above) k) (x_kids x).
Proof. destruct x as [t a s tx ks]. cbn [inner x_kids]. set (X := Xml t a s tx ks). clearbody X. induction ks as [|k ks IH]; [reflexivity|]. cbn. rewrite IH. reflexivity. Qed.

Lemma inner_inside : forall x above y around, In (y, around) (inner above x) <-> inside x above y around.
Proof.
  intros x. induction x as [t a s tx ks IH] using xml_ind'. intros above y around. rewrite inner_eq, in_flat_map. split.
  - intros (k & Hk & [E|H]).
    + injection E as <- <-. constructor. exact Hk.
    + cbn [x_kids] in Hk. apply (proj1 (Forall_forall _ _) IH k Hk) in H. eapply inside_trans; [constructor; exact Hk|exact H].
  - intros H. induction H as [k Hk|x' around' k H IH' Hk].
    + exists k. split; [exact Hk|left; reflexivity].
    + destruct IH' as (k0 & Hk0 & [E|Hin]).
      * injection E as <- <-. exists k0. split; [exact Hk0|]. right. cbn [x_kids] in Hk0.
        apply (proj1 (Forall_forall _ _) IH k0 Hk0). constructor. exact Hk.
      * exists k0. split; [exact Hk0|]. right. cbn [x_kids] in Hk0. pose proof (proj1 (Forall_forall _ _) IH k0 Hk0) as G.
        apply G. apply G in Hin. eapply inside_more; eauto.
Qed.

Lemma in_typed types link above x around : usual link ->
  (In (x, around) (typed_below (map u types) link above) <-> exists t, In t types /\ element_of link above t x around).
Proof.
  intros Hu. unfold typed_below. unfold usual in Hu. rewrite Hu, filter_In, inner_inside. cbn [fst]. unfold has_type, element_of, is_some_tag, xl, clark.
  rewrite andb_true_iff. change (to_clark XLINK (u "type")) with (u "{" ++ XLINK ++ u "}" ++ u "type").
  destruct (attr x (u "{" ++ XLINK ++ u "}" ++ u "type")) as [t|].
  - rewrite existsb_exists. split.
    + intros (H & H1 & y & Hy & E). apply str_eqb_eq in E. subst y. apply in_map_iff in Hy as (t0 & <- & Ht). exists t0.
      split; [exact Ht|]. split; [exact H|]. split; [|reflexivity]. destruct (x_tag x); discriminate.
    + intros (t0 & Ht & H & H1 & [= ->]). split; [exact H|]. split; [destruct (x_tag x); congruence|]. exists (u t0). split; [apply in_map, Ht|apply str_eqb_refl].
  - split; [intros (_ & _ & [=])|intros (t0 & _ & _ & _ & [=])].
Qed.

Lemma clark_split uri local : u "{" ++ uri ++ u "}" ++ local = (u "{" ++ uri ++ u "}") ++ local.
Proof. rewrite !app_assoc. reflexivity. Qed.
Lemma starts_with_spec p s : starts_with p s = true <-> exists r, s = p ++ r.
Proof.
  revert s. induction p as [|a p IH]; intros s; cbn; [split; [eauto|auto]|]. destruct s as [|b s]; [split; [discriminate|intros (r & [=])]|].
  rewrite andb_true_iff, N.eqb_eq, IH. split; [intros (-> & r & ->); eauto|intros (r & [= -> ->]); eauto].
Qed.
Lemma type_xl x : attr x (to_clark xlink_ns (u "type")) = xl "type" x.
Proof. unfold xl, clark, to_clark, XLINK, xlink_ns. reflexivity. Qed.
Lemma link_ns_eq : link_ns = LINKBASE.
Proof. unfold link_ns, LINKBASE. reflexivity. Qed.
Lemma in_all_links docs x around : In (x, around) (all_links docs) <-> extended_link docs x around.
Proof.
  unfold all_links, extended_link. rewrite in_flat_map.
  assert (G : in_namespace link_ns x && has_type xlink_ns [u "extended"] x = true <->
    (exists local, x_tag x = Some (clark LINKBASE local)) /\ xl "type" x = Some (u "extended")).
  { rewrite andb_true_iff. unfold in_namespace, has_type, is_some_tag. rewrite type_xl, link_ns_eq. unfold clark.
    destruct (x_tag x) as [t|]; [|split; [intros [[=] _]|intros [(l & [=]) _]]]. rewrite starts_with_spec. destruct (xl "type" x) as [ty|].
    - cbn [existsb andb]. rewrite orb_false_r, str_eqb_eq. split.
      + intros ((r & ->) & ->). split; [|reflexivity]. exists r. rewrite clark_split. reflexivity.
      + intros ((l & E) & E2). assert (Et : t = u "{" ++ LINKBASE ++ u "}" ++ l) by congruence. split; [|congruence]. exists l. rewrite Et. apply clark_split.
    - split; [intros (_ & [=])|intros (_ & [=])]. }
  split.
  - intros (d & Hd & H). apply filter_In in H as (H & E). apply inner_inside in H. apply G in E. split; [eauto|exact E].
  - intros ((d & Hd & H) & E). exists d. split; [exact Hd|]. apply filter_In. split; [apply inner_inside, H|apply G, E].
Qed.
Lemma in_sorted_links docs p : In p (sorted_links docs) <-> In p (all_links docs).
Proof. unfold sorted_links. rewrite in_app_iff, !filter_In. destruct (is_standard p); cbn; intuition congruence. Qed.

(** ** Languages *)

Lemma elem_lang_some l v : elem_lang l = Some v <-> exists pre y post, l = pre ++ y :: post /\ lang_attr y = Some v /\ forall z, In z pre -> lang_attr z = None.
Proof.
  change xml_lang with (clark (u "http://www.w3.org/XML/1998/namespace") (u "lang")).
  induction l as [|x l IH]; cbn [elem_lang].
  - split; [discriminate|]. intros (pre & y & post & E & _). destruct pre; discriminate.
  - change (attr x xml_lang) with (lang_attr x). destruct (lang_attr x) as [w|] eqn:E.
    + split.
      * intros [= ->]. exists [], x, l. repeat split; [exact E|intros z []].
      * intros (pre & y & post & El & Ey & Hp). destruct pre as [|z pre]; injection El as <- ->; [congruence|].
        specialize (Hp x (or_introl eq_refl)). congruence.
    + rewrite IH. split.
      * intros (pre & y & post & -> & Ey & Hp). exists (x :: pre), y, post. split; [reflexivity|]. split; [exact Ey|]. intros z [<-|Hz]; auto.
      * intros (pre & y & post & El & Ey & Hp). destruct pre as [|z pre]; injection El as <- ->; [congruence|].
        exists pre, y, post. split; [reflexivity|]. split; [exact Ey|]. intros z Hz. apply Hp. right. exact Hz.
Qed.
Lemma elem_lang_none l : elem_lang l = None <-> forall z, In z l -> lang_attr z = None.
Proof.
  induction l as [|x l IH]; cbn [elem_lang]; [split; [intros _ z []|reflexivity]|].
  change (attr x xml_lang) with (lang_attr x). destruct (lang_attr x) as [w|] eqn:E.
  - split; [discriminate|]. intros H. specialize (H x (or_introl eq_refl)). congruence.
  - rewrite IH. split; [intros H z [<-|Hz]; auto|intros H z Hz; apply H; right; exact Hz].
Qed.

(** ** Which labels are added *)

Lemma map_res_forall2 {A B} (f : A -> res B) l : forall r, map_res f l = Ok r <-> Forall2 (fun a b => f a = Ok b) l r.
Proof.
  induction l as [|a l IH]; intros r; cbn.
  - split; [intros [= <-]; constructor|intros H; inversion H; reflexivity].
  - rewrite bind_ok. split.
    + intros (b & Hb & H). apply bind_ok in H as (bs & Hbs & [= <-]). constructor; [exact Hb|apply IH, Hbs].
    + intros H. inversion H as [|? b ? bs Hb Hbs]; subst. exists b. split; [exact Hb|]. apply IH in Hbs. rewrite Hbs. reflexivity.
Qed.
Lemma map_res_fun {A B} (f : A -> res B) (g : A -> B) l : (forall a b, In a l -> f a = Ok b -> b = g a) ->
  forall r, map_res f l = Ok r -> r = map g l.
Proof.
  intros H r Hr. apply map_res_forall2 in Hr. induction Hr as [|a b l bs Hb _ IH]; [reflexivity|]. cbn. f_equal; [apply H; [left; reflexivity|exact Hb]|].
  apply IH. intros a' b' Ha'. apply H. right. exact Ha'.
Qed.
Lemma map_res_each {A B} (f : A -> res B) l r a : map_res f l = Ok r -> In a l -> exists b, f a = Ok b.
Proof. intros H Ha. apply map_res_forall2 in H. induction H as [|a' b l bs Hb _ IH]; [destruct Ha|]. destruct Ha as [->|Ha]; eauto. Qed.
Lemma map_res_succeeds {A B} (f : A -> res B) l : (forall a, In a l -> exists b, f a = Ok b) -> exists r, map_res f l = Ok r.
Proof.
  induction l as [|a l IH]; intros H; [exists []; reflexivity|]. destruct (H a (or_introl eq_refl)) as [b Hb]. destruct IH as [r Hr]; [intros a' Ha'; apply H; right; exact Ha'|].
  exists (b :: r). cbn. rewrite Hb. cbn. rewrite Hr. reflexivity.
Qed.

Definition object_key (h : heap) (n : nat) : nat := match nth_error h n with Some x => o_key (n_obj x) | None => 0 end.
Definition label_of_node (h : heap) (label_at : nat -> option label) (n : nat) : label :=
  match label_at (object_key h n) with Some l => l | None => no_label end.
(** The roots are report elements with labels below. *)
Definition good_root (h : heap) (label_at : nat -> option label) (r : nat) : Prop :=
  exists x, nth_error h r = Some x /\ is_element (o_type (n_obj x)) = true /\
    forall c, In c (n_kids x) -> exists y l, nth_error h c = Some y /\ o_type (n_obj y) = OLabel /\ label_at (o_key (n_obj y)) = Some l.

Definition child_label (h : heap) (label_at : nat -> option label) (x : node) (c : nat) : res (nat * label) :=
  match nth_error h c with
  | None => Raise IndexError
  | Some y =>
      match o_type (n_obj y), label_at (o_key (n_obj y)) with
      | OLabel, Some l => Ok (o_key (n_obj x), l)
      | _, _ => Raise ValueError
      end
  end.
Definition root_labels (h : heap) (label_at : nat -> option label) (r : nat) : res (list (nat * label)) :=
  match nth_error h r with
  | None => Raise IndexError
  | Some x => if is_element (o_type (n_obj x)) then map_res (child_label h label_at x) (n_kids x) else Raise ValueError
  end.
Lemma labels_below_eq h label_at roots : labels_below h label_at roots = (do! ls <- map_res (root_labels h label_at) roots ; Ok (concat ls)).
Proof. reflexivity. Qed.

Lemma child_label_ok h la x c p : child_label h la x c = Ok p ->
  exists y l, nth_error h c = Some y /\ o_type (n_obj y) = OLabel /\ la (o_key (n_obj y)) = Some l /\ p = (o_key (n_obj x), l).
Proof.
  unfold child_label. destruct (nth_error h c) as [y|]; [|discriminate]. destruct (o_type (n_obj y)) eqn:E; try discriminate.
  destruct (la (o_key (n_obj y))) as [l|] eqn:El; [|discriminate]. intros [= <-]. exists y, l. auto.
Qed.
Lemma root_labels_ok h la r p : root_labels h la r = Ok p ->
  good_root h la r /\ p = map (fun c => (object_key h r, label_of_node h la c)) (get_children h r).
Proof.
  unfold root_labels, good_root, get_children. destruct (nth_error h r) as [x|] eqn:E; [|discriminate]. destruct (is_element (o_type (n_obj x))) eqn:Ei; [|discriminate].
  intros H. split.
  - exists x. split; [reflexivity|]. split; [exact Ei|]. intros c Hc. destruct (map_res_each _ _ _ _ H Hc) as [b Hb]. apply child_label_ok in Hb as (y & l & A & B & C & _). eauto.
  - apply (map_res_fun _ (fun c => (object_key h r, label_of_node h la c))) in H; [exact H|]. intros c b Hc Hb.
    apply child_label_ok in Hb as (y & l & A & B & C & ->). unfold label_of_node, object_key. rewrite E, A, C. reflexivity.
Qed.
Lemma root_labels_good h la r : good_root h la r -> exists p, root_labels h la r = Ok p.
Proof.
  intros (x & E & Ei & H). unfold root_labels. rewrite E, Ei. apply map_res_succeeds. intros c Hc. destruct (H c Hc) as (y & l & A & B & C).
  unfold child_label. rewrite A, B, C. eauto.
Qed.

(** All the networks of a link. *)
Definition nets_labels (h : heap) (la : nat -> option label) (nets : list (list nat)) : res (list (nat * label)) :=
  do! ls <- map_res (labels_below h la) nets ; Ok (concat ls).
Definition added_by (h : heap) (la : nat -> option label) (roots : list nat) : list (nat * label) :=
  flat_map (fun r => map (fun c => (object_key h r, label_of_node h la c)) (get_children h r)) roots.
Lemma labels_below_ok h la roots p : labels_below h la roots = Ok p -> (forall r, In r roots -> good_root h la r) /\ p = added_by h la roots.
Proof.
  rewrite labels_below_eq. intros H. apply bind_ok in H as (ls & H & [= <-]). split.
  - intros r Hr. destruct (map_res_each _ _ _ _ H Hr) as [b Hb]. apply root_labels_ok in Hb. tauto.
  - apply (map_res_fun _ (fun r => map (fun c => (object_key h r, label_of_node h la c)) (get_children h r))) in H.
    + rewrite H. unfold added_by. rewrite flat_map_concat_map. reflexivity.
    + intros r b Hr Hb. apply root_labels_ok in Hb. tauto.
Qed.
Lemma labels_below_good h la roots : (forall r, In r roots -> good_root h la r) -> exists p, labels_below h la roots = Ok p.
Proof.
  intros H. rewrite labels_below_eq. destruct (map_res_succeeds (root_labels h la) roots) as [ls Hls]; [intros r Hr; apply root_labels_good, H, Hr|].
  rewrite Hls. cbn. eauto.
Qed.
Lemma flat_map_app' {A B} (f : A -> list B) l1 l2 : flat_map f (l1 ++ l2) = flat_map f l1 ++ flat_map f l2.
Proof. induction l1 as [|a l1 IH]; [reflexivity|]. cbn. rewrite IH, app_assoc. reflexivity. Qed.
Lemma flat_map_concat {A B} (f : A -> list B) ls : concat (map (flat_map f) ls) = flat_map f (concat ls).
Proof. induction ls as [|l ls IH]; [reflexivity|]. cbn. rewrite IH, flat_map_app'. reflexivity. Qed.
Lemma nets_labels_ok h la nets p : nets_labels h la nets = Ok p -> (forall r, In r (concat nets) -> good_root h la r) /\ p = added_by h la (concat nets).
Proof.
  unfold nets_labels. intros H. apply bind_ok in H as (ls & H & [= <-]). split.
  - intros r Hr. apply in_concat in Hr as (net & Hnet & Hr). destruct (map_res_each _ _ _ _ H Hnet) as [b Hb]. apply labels_below_ok in Hb as [Hb _]. auto.
  - apply (map_res_fun _ (added_by h la)) in H.
    + rewrite H. unfold added_by at 1. apply flat_map_concat.
    + intros net b _ Hb. apply labels_below_ok in Hb. tauto.
Qed.
Lemma nets_labels_good h la nets : (forall r, In r (concat nets) -> good_root h la r) -> exists p, nets_labels h la nets = Ok p.
Proof.
  intros H. unfold nets_labels. destruct (map_res_succeeds (labels_below h la) nets) as [ls Hls].
  - intros net Hnet. apply labels_below_good. intros r Hr. apply H, in_concat. eauto.
  - rewrite Hls. cbn. eauto.
Qed.

(** ** Roots are listed once *)

Lemma NoDup_concat_filter {A} (f : A -> str) roots : NoDup roots -> forall rs, NoDup rs -> NoDup (concat (map (fun r => filter (fun n => str_eqb (f n) r) roots) rs)).
Proof.
  intros H rs Hrs. induction Hrs as [|r rs Hr _ IH]; [constructor|]. cbn. apply NoDup_app_intro; [apply NoDup_filter, H|exact IH|].
  intros x Hx Hx'. apply filter_In in Hx as [_ Ex]. apply str_eqb_eq in Ex. apply in_concat in Hx' as (l & Hl & Hx'). apply in_map_iff in Hl as (r' & <- & Hr').
  apply filter_In in Hx' as [_ Ex']. apply str_eqb_eq in Ex'. congruence.
Qed.
Lemma link_roots_nodup k eo ro arcs locs h nets dups : parse_link k eo ro arcs locs = Ok (h, nets, dups) -> some_order ro -> NoDup (concat nets).
Proof.
  intros H Hro. apply parse_link_inv in H as (_ & _ & _ & roots & Hr & ->).
  assert (Hn : NoDup roots).
  { rewrite Hr. eapply Permutation_NoDup; [apply Hro|]. clear. generalize (nodes_from k arcs 0 locs). intros ns. generalize 0.
    induction ns as [|[x b] ns IH]; intros i; [constructor|]. cbn [length seq combine filter snd]. destruct b; cbn [map fst]; [|apply IH].
    constructor; [|apply IH]. rewrite flagged_in. lia. }
  cbv zeta. destruct (is_physical k).
  - apply NoDup_concat_filter; [exact Hn|apply dedup_spec].
  - destruct roots; cbn; [constructor|]. rewrite app_nil_r. exact Hn.
Qed.

Lemma NoDup_map_on {A B} (f : A -> B) l : (forall a b, In a l -> In b l -> f a = f b -> a = b) -> NoDup l -> NoDup (map f l).
Proof.
  intros Hf H. induction H as [|a l Ha H IH]; [constructor|]. cbn. constructor.
  - intros Hin. apply in_map_iff in Hin as (b & E & Hb). assert (b = a) by (apply Hf; [right; exact Hb|left; reflexivity|exact E]). congruence.
  - apply IH. intros x y Hx Hy. apply Hf; right; assumption.
Qed.
Lemma NoDup_pairs {A B} (f : A -> list B) l : NoDup l -> (forall a, In a l -> NoDup (f a)) -> NoDup (flat_map (fun a => map (pair a) (f a)) l).
Proof.
  intros H. induction H as [|a l Ha H IH]; intros Hf; [constructor|]. cbn. apply NoDup_app_intro.
  - apply FinFun.Injective_map_NoDup; [intros x y E; congruence|apply Hf; left; reflexivity].
  - apply IH. intros b Hb. apply Hf. right. exact Hb.
  - intros [x y] Hx Hy. apply in_map_iff in Hx as (z & [= -> ->] & _). apply in_flat_map in Hy as (b & Hb & Hy). apply in_map_iff in Hy as (z & [= -> ->] & _). exact (Ha Hb).
Qed.

(** ** Positions *)

(** Locator [i] leads to [j] by an arc of the role, and no such arc leads to [i]. *)
Definition leads (arcs : list arc) (locs : list loc) (i : nat) (role : str) (j : nat) : Prop :=
  exists li lj, nth_error locs i = Some li /\ nth_error locs j = Some lj /\ l_obj li <> None /\ l_obj lj <> None /\
    has_arc arcs (NetModel.l_label li) (NetModel.l_label lj) role /\
    forall a, In a arcs -> a_role a = role -> a_to a <> NetModel.l_label li.
Definition key_at (locs : list loc) (i : nat) : nat :=
  match nth_error locs i with Some (Loc _ (Some o)) => o_key o | _ => 0 end.
Definition label_at_loc (locs : list loc) (la : nat -> option label) (j : nat) : label :=
  match la (key_at locs j) with Some l => l | None => no_label end.

Definition triple_of (h : heap) (p : nat * nat) : nat * str * nat :=
  match nth_error h (fst p), nth_error h (snd p) with
  | Some x, Some y => (n_loc x, n_role x, n_loc y)
  | _, _ => (0, [], 0)
  end.

Lemma in_relevant_physical k arcs x a : is_physical k = true -> (In a (relevant k arcs x) <-> In a arcs /\ a_role a = n_role x).
Proof. intros Hp. unfold relevant. rewrite Hp, filter_In. unfold with_role. rewrite str_eqb_eq. reflexivity. Qed.

Lemma added_triples k eo ro arcs locs h nets dups la : is_physical k = true -> parse_link k eo ro arcs locs = Ok (h, nets, dups) ->
  some_order eo -> some_order ro ->
  exists ts, NoDup ts /\ (forall i role j, In (i, role, j) ts <-> leads arcs locs i role j) /\
    added_by h la (concat nets) = map (fun t => (key_at locs (fst (fst t)), label_at_loc locs la (snd t))) ts.
Proof.
  intros Hp H Heo Hro. pose proof (link_roots_nodup _ _ _ _ _ _ _ _ H Hro) as Hn.
  set (pairs := flat_map (fun r => map (pair r) (get_children h r)) (concat nets)).
  assert (Hpairs : forall r c, In (r, c) pairs <-> In r (concat nets) /\ In c (get_children h r)).
  { intros r c. unfold pairs. rewrite in_flat_map. split.
    - intros (r' & Hr & Hc). apply in_map_iff in Hc as (c' & [= -> ->] & Hc). auto.
    - intros [Hr Hc]. exists r. split; [exact Hr|apply in_map, Hc]. }
  assert (Hin : forall r c, In (r, c) pairs -> exists x l y l', made_for h locs r x l /\ made_for h locs c y l' /\ In c (n_kids x) /\
     l_obj l = Some (n_obj x) /\ l_obj l' = Some (n_obj y) /\ n_role y = n_role x /\ has_arc arcs (NetModel.l_label l) (NetModel.l_label l') (n_role x) /\
     (forall a, In a arcs -> a_role a = n_role x -> a_to a <> NetModel.l_label l)).
  { intros r c Hrc. apply Hpairs in Hrc as [Hr Hc]. unfold get_children in Hc. destruct (nth_error h r) as [x|] eqn:Ex; [|destruct Hc].
    destruct (link_kids _ _ _ _ _ _ _ _ _ _ _ H Ex Hc) as (y & l' & My).
    destruct (link_obj _ _ _ _ _ _ _ _ _ _ H Ex) as (l & Mx & Ox). destruct (link_obj _ _ _ _ _ _ _ _ _ _ H (proj1 My)) as (l2 & My2 & Oy).
    assert (l2 = l') as -> by (destruct My, My2; congruence).
    destruct (C19_physical_child_iff_arc _ _ _ _ _ _ _ _ _ _ _ H Heo Hp Mx) as [_ G]. destruct (proj1 (G c y l' My) Hc) as [Er Ha].
    exists x, l, y, l'. repeat (split; [assumption|]). intros a Ha' Hrole.
    apply (proj1 (link_roots _ _ _ _ _ _ _ _ _ _ _ H Hro Mx) Hr). apply in_relevant_physical; auto. }
  assert (Hnp : NoDup pairs).
  { apply NoDup_pairs; [exact Hn|]. intros r Hr. unfold get_children. destruct (nth_error h r) as [x|] eqn:Ex; [|constructor].
    destruct (link_obj _ _ _ _ _ _ _ _ _ _ H Ex) as (l & Mx & _). apply (C19_physical_child_iff_arc _ _ _ _ _ _ _ _ _ _ _ H Heo Hp Mx). }
  exists (map (triple_of h) pairs). split; [|split].
  - apply NoDup_map_on; [|exact Hnp]. intros [r c] [r' c'] Hrc Hrc' E.
    destruct (Hin r c Hrc) as (x & l & y & l' & [Ex _] & [Ey _] & _ & _ & _ & Er & _).
    destruct (Hin r' c' Hrc') as (x2 & l2 & y2 & l2' & [Ex2 _] & [Ey2 _] & _ & _ & _ & Er2 & _).
    unfold triple_of in E. cbn [fst snd] in E. rewrite Ex, Ey, Ex2, Ey2 in E. injection E as E1 E2 E3. f_equal.
    + apply (link_node_unique _ _ _ _ _ _ _ _ _ _ _ _ H Ex Ex2 E1). auto.
    + apply (link_node_unique _ _ _ _ _ _ _ _ _ _ _ _ H Ey Ey2 E3). congruence.
  - intros i role j. rewrite in_map_iff. split.
    + intros ([r c] & E & Hrc). destruct (Hin r c Hrc) as (x & l & y & l' & [Ex El] & [Ey El'] & _ & Ox & Oy & Er & Ha & Hno).
      unfold triple_of in E. cbn [fst snd] in E. rewrite Ex, Ey in E. injection E as <- <- <-. exists l, l'. repeat split; auto; congruence.
    + intros (li & lj & Ei & Ej & Oi & Oj & Ha & Hno). destruct (l_obj li) as [oi|] eqn:Eoi; [|congruence]. destruct (l_obj lj) as [oj|] eqn:Eoj; [|congruence].
      destruct (C19_nodes_physical _ _ _ _ _ _ _ _ H Hp) as (G & _ & _). destruct Ha as (a & Hain & Hf & Ht & Hr).
      destruct (G i li oi role Ei Eoi) as (r & x & Mx & Lx & _ & Rx & _); [exists a; auto|].
      destruct (G j lj oj role Ej Eoj) as (c & y & My & Ly & _ & Ry & _); [exists a; auto|].
      exists (r, c). split; [unfold triple_of; cbn [fst snd]; rewrite (proj1 Mx), (proj1 My); congruence|]. apply Hpairs. split.
      * apply (proj2 (link_roots _ _ _ _ _ _ _ _ _ _ _ H Hro Mx)). intros b Hb. apply in_relevant_physical in Hb as [Hb Hbr]; [|exact Hp]. apply Hno; congruence.
      * unfold get_children. rewrite (proj1 Mx). apply (proj2 (C19_physical_child_iff_arc _ _ _ _ _ _ _ _ _ _ _ H Heo Hp Mx) c y lj My).
        split; [congruence|]. exists a. repeat split; congruence.
  - rewrite map_map. unfold added_by, pairs. clear Hnp Hpairs.
    assert (Hall : forall r c, In r (concat nets) -> In c (get_children h r) ->
      (object_key h r, label_of_node h la c) = (key_at locs (fst (fst (triple_of h (r, c)))), label_at_loc locs la (snd (triple_of h (r, c))))).
    { intros r c Hr Hc. destruct (Hin r c) as (x & l & y & l' & [Ex El] & [Ey El'] & _ & Ox & Oy & _).
      { unfold pairs. apply in_flat_map. exists r. split; [exact Hr|apply in_map, Hc]. }
      unfold triple_of, object_key, label_of_node, label_at_loc, key_at, object_key. cbn [fst snd]. rewrite Ex, Ey. cbn [fst snd]. rewrite El, El'.
      destruct l as [? ol], l' as [? ol']. cbn in Ox, Oy. subst. reflexivity. }
    revert Hall. clear. induction (concat nets) as [|r rs IH]; intros Hall; [reflexivity|]. cbn [flat_map]. rewrite map_app, map_map. f_equal.
    + apply map_ext_in. intros c Hc. apply Hall; [left; reflexivity|exact Hc].
    + apply IH. intros r' c Hr. apply Hall. right. exact Hr.
Qed.

(** ** Resources and link elements *)

Local Opaque insert create.
Lemma contains_part p s : contains p s = true <-> part_of p s.
Proof. apply contains_spec. Qed.

Lemma in_names_type : In "type"%string xlink_names. Proof. cbn. tauto. Qed.
Lemma in_names_label : In "label"%string xlink_names. Proof. cbn. tauto. Qed.
Lemma in_names_role : In "role"%string xlink_names. Proof. cbn. tauto. Qed.
Lemma in_names_href : In "href"%string xlink_names. Proof. cbn. tauto. Qed.
Lemma in_names_from : In "from"%string xlink_names. Proof. cbn. tauto. Qed.
Lemma in_names_to : In "to"%string xlink_names. Proof. cbn. tauto. Qed.
Lemma in_names_arcrole : In "arcrole"%string xlink_names. Proof. cbn. tauto. Qed.
Lemma req_type x v : usual x -> (required x (u "xlink:type") = Ok v <-> xl "type" x = Some v). Proof. exact (required_xlink x "type" v in_names_type). Qed.
Lemma req_label x v : usual x -> (required x (u "xlink:label") = Ok v <-> xl "label" x = Some v). Proof. exact (required_xlink x "label" v in_names_label). Qed.
Lemma req_role x v : usual x -> (required x (u "xlink:role") = Ok v <-> xl "role" x = Some v). Proof. exact (required_xlink x "role" v in_names_role). Qed.
Lemma req_href x v : usual x -> (required x (u "xlink:href") = Ok v <-> xl "href" x = Some v). Proof. exact (required_xlink x "href" v in_names_href). Qed.
Lemma req_from x v : usual x -> (required x (u "xlink:from") = Ok v <-> xl "from" x = Some v). Proof. exact (required_xlink x "from" v in_names_from). Qed.
Lemma req_to x v : usual x -> (required x (u "xlink:to") = Ok v <-> xl "to" x = Some v). Proof. exact (required_xlink x "to" v in_names_to). Qed.
Lemma req_arcrole x v : usual x -> (required x (u "xlink:arcrole") = Ok v <-> xl "arcrole" x = Some v). Proof. exact (required_xlink x "arcrole" v in_names_arcrole). Qed.
Lemma opt_role x : usual x -> attr_prefixed x (u "xlink:role") = Ok (xl "role" x). Proof. exact (attr_xlink x "role" in_names_role). Qed.

Section Entries.
Variable element_str : xml -> str.
Variable find_id : str -> option found.

(** A label is what is written. *)
Lemma resource_label x around es l es' : usual x ->
  (parse_xml_resource element_str x around es = Ok (Some (RLabel l), es') <->
   es' = es /\ xl "type" x = Some (u "resource") /\ written_label x around l).
Proof.
  intros Hu. unfold parse_xml_resource, written_label. split.
  - intros H. apply bind_ok in H as (t & Ht & H). destruct (str_eqb t (u "resource")) eqn:Et; [|discriminate]. cbn [negb] in H.
    apply str_eqb_eq in Et. subst t. apply bind_ok in H as (lab & Hl & H). apply bind_ok in H as (role & Hr & H).
    apply (req_type x _ Hu) in Ht. apply (req_label x _ Hu) in Hl. apply (req_role x _ Hu) in Hr.
    destruct (x_tag x) as [tag|]; [|discriminate]. destruct (contains (u "label") tag) eqn:Ec.
    + destruct (elem_lang (x :: around)) as [lang|] eqn:El; [|apply bind_ok in H as (es1 & _ & [=])]. injection H as <- <-. cbn [l_lang l_role l_label l_text].
      split; [reflexivity|]. split; [exact Ht|]. split; [exists tag; split; [reflexivity|apply contains_part, Ec]|].
      split; [apply elem_lang_some, El|]. split; [exact Hr|]. split; [exact Hl|reflexivity].
    + destruct (contains (u "footnote") tag).
      * destruct (elem_lang (x :: around)); [discriminate|apply bind_ok in H as (es1 & _ & [=])].
      * destruct (contains (u "reference") tag); [apply bind_ok in H as (c & _ & [=])|apply bind_ok in H as (es1 & _ & [=])].
  - intros (-> & Ht & (tag & Etag & Hp) & Hs & Hr & Hl & Htext).
    apply (req_type x _ Hu) in Ht. apply (req_label x _ Hu) in Hl. apply (req_role x _ Hu) in Hr.
    rewrite Ht. cbn [bind]. rewrite str_eqb_refl. cbn [negb]. rewrite Hl. cbn [bind]. rewrite Hr. cbn [bind]. rewrite Etag.
    apply contains_part in Hp. rewrite Hp. apply elem_lang_some in Hs. rewrite Hs. unfold text_or_empty. rewrite <- Htext. destruct l; reflexivity.
Qed.

(** What a link element stands for. *)
Lemma link_object_locator i x around es o es' : usual x -> xl "type" x = Some (u "locator") ->
  link_object element_str find_id i x around es = Ok (o, es') ->
  exists href, xl "href" x = Some href /\ o = option_map (fun f => (obj_of_found f, None)) (find_id (fragment href)).
Proof.
  intros Hu Ht H. unfold link_object in H. apply bind_ok in H as (t & Ht' & H). apply (req_type x _ Hu) in Ht'.
  assert (t = u "locator") as -> by congruence. rewrite str_eqb_refl in H. apply bind_ok in H as (href & Hh & H). apply (req_href x _ Hu) in Hh.
  exists href. split; [exact Hh|]. unfold fragment. destruct (find_id _); [injection H as <- _; reflexivity|]. apply bind_ok in H as (es1 & _ & H). injection H as <- _. reflexivity.
Qed.
Lemma link_object_resource i x around es o es' : usual x -> xl "type" x = Some (u "resource") ->
  link_object element_str find_id i x around es = Ok (o, es') ->
  exists r, parse_xml_resource element_str x around es = Ok (r, es') /\ o = option_map (fun r => (Obj i (resource_type r), Some r)) r.
Proof.
  intros Hu Ht H. unfold link_object in H. apply bind_ok in H as (t & Ht' & H). apply (req_type x _ Hu) in Ht'.
  assert (t = u "resource") as -> by congruence. change (str_eqb (u "resource") (u "locator")) with false in H. rewrite str_eqb_refl in H.
  apply bind_ok in H as ([r es1] & Hr & H). cbn [fst snd] in H. exists r. destruct r as [r|]; injection H as <- <-; split; auto.
Qed.

Lemma link_entries_nth : forall l i es entries es', link_entries element_str find_id i l es = Ok (entries, es') ->
  length entries = length l /\
  forall j x around, nth_error l j = Some (x, around) -> exists lab o es1 es2, nth_error entries j = Some (lab, o) /\
    required x (u "xlink:label") = Ok lab /\ link_object element_str find_id (i + j) x around es1 = Ok (o, es2).
Proof.
  induction l as [|[x around] l IH]; intros i es entries es' H; cbn [link_entries] in H.
  - injection H as <- <-. split; [reflexivity|]. intros [|j] x around [=].
  - apply bind_ok in H as (lab & Hl & H). apply bind_ok in H as ([o es1] & Ho & H). cbn [fst snd] in H. apply bind_ok in H as ([r es2] & Hr & H).
    cbn [fst snd] in H. injection H as <- <-. apply IH in Hr as [Hlen Hr]. split; [cbn; congruence|].
    intros [|j] y around' E; cbn in E.
    + injection E as <- <-. exists lab, o, es, es1. rewrite Nat.add_0_r. auto.
    + destruct (Hr j y around' E) as (lab' & o' & e1 & e2 & A & B & C). exists lab', o', e1, e2. rewrite <- Nat.add_succ_comm. auto.
Qed.
End Entries.

Lemma link_arcs_forall2 number : forall l seen es arcs es', link_arcs number seen l es = Ok (arcs, es') ->
  Forall2 (fun p a => arc_of number (fst p) = Ok a) l arcs.
Proof.
  induction l as [|[x around] l IH]; intros seen es arcs es' H; cbn [link_arcs] in H.
  - injection H as <- <-. constructor.
  - apply bind_ok in H as (a & Ha & H). apply bind_ok in H as (es1 & _ & H). apply bind_ok in H as ([r es2] & Hr & H). injection H as <- <-.
    constructor; [exact Ha|]. eapply IH, Hr.
Qed.
Lemma arc_of_ok number x a : usual x -> arc_of number x = Ok a ->
  xl "from" x = Some (a_from a) /\ xl "to" x = Some (a_to a) /\ xl "arcrole" x = Some (a_role a).
Proof.
  intros Hu H. unfold arc_of in H. apply bind_ok in H as (f & Hf & H). apply bind_ok in H as (t & Ht & H). apply bind_ok in H as (r & Hr & H). injection H as <-.
  apply (req_from x _ Hu) in Hf. apply (req_to x _ Hu) in Ht. apply (req_arcrole x _ Hu) in Hr. auto.
Qed.

(** ** One label link *)

Definition link_parts (link : xml) (outside : list xml) : list (xml * list xml) := typed_below [u "resource"; u "locator"] link outside.

Section LabelLink.
Variable element_str : xml -> str.
Variable number : str -> Q.
Variable find_id : str -> option found.
Variable link : xml.
Variable outside : list xml.
Hypothesis Hlink : usual link.
Hypothesis Hinside : forall x around, inside link outside x around -> usual x.
Variable es0 es1 es2 : repo xml.
Variable arcs : list arc.
Variable entries : list entry.
Hypothesis Harcs : link_arcs number [] (typed_below [u "arc"] link outside) es0 = Ok (arcs, es1).
Hypothesis Hentries : link_entries element_str find_id 0 (link_parts link outside) es1 = Ok (entries, es2).

Lemma part_type j x around : nth_error (link_parts link outside) j = Some (x, around) ->
  usual x /\ (element_of link outside "locator" x around \/ element_of link outside "resource" x around).
Proof.
  intros H. apply nth_error_In in H. change [u "resource"; u "locator"] with (map u ["resource"; "locator"]%string) in H.
  apply (in_typed ["resource"; "locator"]%string link outside x around Hlink) in H as (t & Ht & H). split; [apply (Hinside x around), H|].
  destruct Ht as [<-|[<-|[]]]; auto.
Qed.
Lemma in_part t x around : (t = "locator" \/ t = "resource")%string -> element_of link outside t x around -> exists j, nth_error (link_parts link outside) j = Some (x, around).
Proof.
  intros Ht H. apply In_nth_error. change (link_parts link outside) with (typed_below (map u ["resource"; "locator"]%string) link outside). apply (in_typed _ link outside x around Hlink).
  exists t. split; [destruct Ht as [-> | ->]; cbn; auto|exact H].
Qed.
Lemma part_entry j x around : nth_error (link_parts link outside) j = Some (x, around) ->
  exists lab o e1 e2, nth_error entries j = Some (lab, o) /\ xl "label" x = Some lab /\ link_object element_str find_id j x around e1 = Ok (o, e2).
Proof.
  intros H. destruct (part_type _ _ _ H) as [Hu _]. destruct (link_entries_nth _ _ _ _ _ _ _ Hentries) as [_ G]. destruct (G j x around H) as (lab & o & e1 & e2 & A & B & C).
  exists lab, o, e1, e2. apply (req_label x _ Hu) in B. auto.
Qed.
Lemma entry_part j lab o : nth_error entries j = Some (lab, o) -> exists x around, nth_error (link_parts link outside) j = Some (x, around).
Proof.
  intros H. destruct (link_entries_nth _ _ _ _ _ _ _ Hentries) as [G _]. destruct (nth_error (link_parts link outside) j) as [[x a]|] eqn:E; [eauto|].
  apply nth_error_None in E. assert (j < length entries) by (apply nth_error_Some; congruence). lia.
Qed.

Lemma entry_element j x around lab o e : nth_error (link_parts link outside) j = Some (x, around) -> nth_error entries j = Some (lab, o) ->
  ((exists ob r, o = Some (ob, r) /\ is_element (o_type ob) = true /\ o_key ob = e) <->
   element_of link outside "locator" x around /\ locates find_id x e).
Proof.
  intros Hp He. destruct (part_entry _ _ _ Hp) as (lab' & o' & e1 & e2 & He' & _ & Ho). assert (o' = o) as -> by congruence. clear He'.
  destruct (part_type _ _ _ Hp) as [Hu [Ht|Ht]].
  - destruct (link_object_locator _ _ _ _ _ _ _ _ Hu (proj2 (proj2 Ht)) Ho) as (href & Hh & ->). unfold locates. split.
    + intros (ob & r & E & Hi & Hk). split; [exact Ht|]. exists href. split; [exact Hh|]. destruct (find_id (fragment href)) as [f|]; [|discriminate].
      injection E as <- _. destruct f; cbn in *; subst; auto. discriminate.
    + intros (_ & href' & Hh' & Hf). assert (href' = href) as -> by congruence. destruct Hf as [Hf|Hf]; rewrite Hf; cbn; eauto.
  - destruct (link_object_resource _ _ _ _ _ _ _ _ Hu (proj2 (proj2 Ht)) Ho) as (r & _ & ->). split.
    + intros (ob & r' & E & Hi & _). destruct r as [[]|]; try discriminate E; injection E as <- _; discriminate.
    + intros (Ht' & _). destruct Ht as (_ & _ & Ht). destruct Ht' as (_ & _ & Ht'). rewrite Ht in Ht'. discriminate.
Qed.
Lemma entry_label j x around lab o l : nth_error (link_parts link outside) j = Some (x, around) -> nth_error entries j = Some (lab, o) ->
  ((exists ob r, o = Some (ob, r) /\ o_type ob = OLabel /\ label_of_entry entries (o_key ob) = Some l) <->
   element_of link outside "resource" x around /\ written_label x around l).
Proof.
  intros Hp He. destruct (part_entry _ _ _ Hp) as (lab' & o' & e1 & e2 & He' & _ & Ho). assert (o' = o) as -> by congruence. clear He'.
  destruct (part_type _ _ _ Hp) as [Hu [Ht|Ht]].
  - destruct (link_object_locator _ _ _ _ _ _ _ _ Hu (proj2 (proj2 Ht)) Ho) as (href & Hh & ->). split.
    + intros (ob & r & E & Hi & _). destruct (find_id (fragment href)) as [[]|]; try discriminate E; injection E as <- _; discriminate.
    + intros (Ht' & _). destruct Ht as (_ & _ & Ht). destruct Ht' as (_ & _ & Ht'). rewrite Ht in Ht'. discriminate.
  - destruct (link_object_resource _ _ _ _ _ _ _ _ Hu (proj2 (proj2 Ht)) Ho) as (r & Hr & ->). split.
    + intros (ob & r' & E & Hi & Hl). destruct r as [r|]; [|discriminate]. injection E as <- _. cbn [o_key] in Hl. split; [exact Ht|].
      unfold label_of_entry in Hl. rewrite He in Hl. cbn [option_map] in Hl. destruct r as [l'| |]; try discriminate. injection Hl as ->.
      apply resource_label in Hr; [|exact Hu]. apply Hr.
    + intros (_ & Hw). assert (Hr' : parse_xml_resource element_str x around e1 = Ok (Some (RLabel l), e1)) by (apply resource_label; [exact Hu|]; split; [reflexivity|split; [apply Ht|exact Hw]]).
      rewrite Hr' in Hr. injection Hr as <- <-. exists (Obj j OLabel), (Some (RLabel l)). split; [reflexivity|]. split; [reflexivity|]. cbn [o_key].
      unfold label_of_entry. rewrite He. reflexivity.
Qed.

Lemma arc_element a : In a arcs -> exists x around, element_of link outside "arc" x around /\
  xl "from" x = Some (a_from a) /\ xl "to" x = Some (a_to a) /\ xl "arcrole" x = Some (a_role a).
Proof.
  intros Ha. pose proof (link_arcs_forall2 _ _ _ _ _ _ Harcs) as F.
  assert (G : forall l : list (xml * list xml), Forall2 (fun p a => arc_of number (fst p) = Ok a) l arcs -> exists p, In p l /\ arc_of number (fst p) = Ok a).
  { intros l Hl. revert Ha. clear -Hl. induction Hl as [|p b l bs Hb _ IH]; intros Ha; [destruct Ha|]. destruct Ha as [->|Ha]; [exists p; cbn; auto|].
    destruct (IH Ha) as (q & Hq & E). exists q. cbn. auto. }
  destruct (G _ F) as ([x around] & Hin & E). change [u "arc"] with (map u ["arc"]%string) in Hin. apply (in_typed _ link outside x around Hlink) in Hin as (t & [<-|[]] & Hel).
  exists x, around. split; [exact Hel|]. apply (arc_of_ok number); [apply (Hinside x around), Hel|exact E].
Qed.
Lemma element_arc x around : element_of link outside "arc" x around -> exists a, In a arcs /\
  xl "from" x = Some (a_from a) /\ xl "to" x = Some (a_to a) /\ xl "arcrole" x = Some (a_role a).
Proof.
  intros Hel. pose proof (link_arcs_forall2 _ _ _ _ _ _ Harcs) as F.
  assert (Hin : In (x, around) (typed_below [u "arc"] link outside)).
  { change [u "arc"] with (map u ["arc"]%string). apply (in_typed _ link outside x around Hlink). exists "arc"%string. cbn. auto. }
  revert Hin F. generalize (typed_below [u "arc"] link outside). intros l Hin F.
  assert (exists a, In a arcs /\ arc_of number x = Ok a) as (a & Ha & E).
  { clear -F Hin. induction F as [|p b l bs Hb _ IH]; [destruct Hin|]. destruct Hin as [->|Hin]; [exists b; cbn; auto|]. destruct (IH Hin) as (a & A & B). exists a. cbn. auto. }
  exists a. split; [exact Ha|]. apply (arc_of_ok number); [apply (Hinside x around), Hel|exact E].
Qed.

(** [leads] in terms of the document *)
Lemma leads_iff i role j loc al res ar : nth_error (link_parts link outside) i = Some (loc, al) -> nth_error (link_parts link outside) j = Some (res, ar) ->
  (leads arcs (map loc_of entries) i role j <->
   arc_leads link outside role loc res /\
   (exists lab o, nth_error entries i = Some (lab, Some o)) /\ (exists lab o, nth_error entries j = Some (lab, Some o))).
Proof.
  intros Hi Hj. destruct (part_entry _ _ _ Hi) as (li & oi & ei1 & ei2 & Ei & Li & _). destruct (part_entry _ _ _ Hj) as (lj & oj & ej1 & ej2 & Ej & Lj & _).
  unfold leads, arc_leads. rewrite !nth_error_map, Ei, Ej. cbn [option_map]. rewrite Li, Lj. split.
  - intros (a1 & a2 & E1 & E2 & O1 & O2 & Ha & Hno). injection E1 as <-. injection E2 as <-. cbn [l_obj NetModel.l_label loc_of fst snd] in *.
    split; [split|split].
    + destruct Ha as (a & Hin & A & B & C). destruct (arc_element a Hin) as (x & around & Hel & F & T & R). exists x, around. split; [exact Hel|]. subst. repeat split; congruence.
    + intros x around Hel HR. destruct (element_arc x around Hel) as (a & Hin & F & T & R). rewrite T. intros E. apply (Hno a Hin); congruence.
    + destruct oi as [oi|]; [eauto|cbn in O1; congruence].
    + destruct oj as [oj|]; [eauto|cbn in O2; congruence].
  - intros (((x & around & Hel & R & F & T) & Hno) & (l1 & o1 & E1) & (l2 & o2 & E2)). injection E1 as <- ->. injection E2 as <- ->.
    eexists. eexists. split; [reflexivity|]. split; [reflexivity|]. cbn [l_obj NetModel.l_label loc_of fst snd option_map]. split; [discriminate|]. split; [discriminate|]. split.
    + destruct (element_arc x around Hel) as (a & Hin & F' & T' & R'). exists a. repeat split; [exact Hin|congruence..].
    + intros a Hin Hr E. destruct (arc_element a Hin) as (y & around' & Hel' & F' & T' & R'). apply (Hno y around' Hel'); congruence.
Qed.

Variable eo : list edge -> list edge.
Variable ro : list nat -> list nat.
Hypothesis Heo : some_order eo.
Hypothesis Hro : some_order ro.

Lemma label_link_added h nets dups added : parse_link KLabel eo ro arcs (map loc_of entries) = Ok (h, nets, dups) ->
  nets_labels h (label_of_entry entries) nets = Ok added ->
  exists ts, NoDup ts /\
    (forall i role j, In (i, role, j) ts <-> exists loc al res ar, nth_error (link_parts link outside) i = Some (loc, al) /\ nth_error (link_parts link outside) j = Some (res, ar) /\
       (element_of link outside "locator" loc al /\ exists e, locates find_id loc e) /\
       (element_of link outside "resource" res ar /\ exists l, written_label res ar l) /\ arc_leads link outside role loc res) /\
    Forall2 (fun t p => exists loc al res ar, nth_error (link_parts link outside) (fst (fst t)) = Some (loc, al) /\ nth_error (link_parts link outside) (snd t) = Some (res, ar) /\
       locates find_id loc (fst p) /\ written_label res ar (snd p)) ts added.
Proof.
  intros H Hadd. destruct (nets_labels_ok _ _ _ _ Hadd) as [Hgood ->].
  destruct (added_triples KLabel eo ro arcs (map loc_of entries) h nets dups (label_of_entry entries) eq_refl H Heo Hro) as (ts & Hn & Hin & E).
  (* the roots of a triple are good *)
  assert (Hts : forall i role j, leads arcs (map loc_of entries) i role j -> exists loc al res ar, nth_error (link_parts link outside) i = Some (loc, al) /\ nth_error (link_parts link outside) j = Some (res, ar) /\
       (element_of link outside "locator" loc al /\ locates find_id loc (key_at (map loc_of entries) i)) /\
       (element_of link outside "resource" res ar /\ written_label res ar (label_at_loc (map loc_of entries) (label_of_entry entries) j)) /\ arc_leads link outside role loc res).
  { intros i role j Hl. pose proof Hl as (li & lj & Ei & Ej & Oi & Oj & Ha & Hno). rewrite nth_error_map in Ei, Ej.
    destruct (nth_error entries i) as [[labi oi]|] eqn:Eei; [|discriminate]. destruct (nth_error entries j) as [[labj oj]|] eqn:Eej; [|discriminate].
    injection Ei as <-. injection Ej as <-. destruct (entry_part _ _ _ Eei) as (loc & al & Pi). destruct (entry_part _ _ _ Eej) as (res & ar & Pj).
    exists loc, al, res, ar. split; [exact Pi|]. split; [exact Pj|].
    destruct (l_obj (loc_of (labi, oi))) as [ob|] eqn:Eob; [|congruence]. destruct (l_obj (loc_of (labj, oj))) as [ob'|] eqn:Eob'; [|congruence].
    destruct (C19_nodes_physical _ _ _ _ _ _ _ _ H eq_refl) as (G & _ & _). destruct Ha as (a & Hain & Hf & Ht & Hr).
    assert (Ni : nth_error (map loc_of entries) i = Some (loc_of (labi, oi))) by (rewrite nth_error_map, Eei; reflexivity).
    assert (Nj : nth_error (map loc_of entries) j = Some (loc_of (labj, oj))) by (rewrite nth_error_map, Eej; reflexivity).
    destruct (G i _ ob role Ni Eob) as (r & x & Mx & Lx & Ox & Rx & _); [exists a; auto|].
    destruct (G j _ ob' role Nj Eob') as (c & y & My & Ly & Oy & Ry & _); [exists a; auto|].
    assert (Hroot : In r (concat nets)).
    { apply (proj2 (link_roots _ _ _ _ _ _ _ _ _ _ _ H Hro Mx)). intros b Hb. apply in_relevant_physical in Hb as [Hb Hbr]; [|reflexivity]. apply Hno; congruence. }
    assert (Hkid : In c (n_kids x)).
    { apply (proj2 (C19_physical_child_iff_arc _ _ _ _ _ _ _ _ _ _ _ H Heo eq_refl Mx) c y _ My). split; [congruence|]. exists a. repeat split; congruence. }
    destruct (Hgood r Hroot) as (x' & Ex' & Hel & Hk). assert (x' = x) as -> by (destruct Mx; congruence). destruct (Hk c Hkid) as (y' & l & Ey' & Ht' & Hl').
    assert (y' = y) as -> by (destruct My; congruence). rewrite Ox in Hel. rewrite Oy in Ht', Hl'.
    assert (Ki : key_at (map loc_of entries) i = o_key ob) by (unfold key_at; rewrite Ni; unfold loc_of in *; cbn [l_obj] in Eob; rewrite Eob; reflexivity).
    assert (Kj : key_at (map loc_of entries) j = o_key ob') by (unfold key_at; rewrite Nj; unfold loc_of in *; cbn [l_obj] in Eob'; rewrite Eob'; reflexivity).
    cbn [loc_of l_obj snd] in Eob, Eob'. destruct oi as [[oi ri]|]; [|discriminate]. destruct oj as [[oj rj]|]; [|discriminate]. cbn in Eob, Eob'. injection Eob as ->. injection Eob' as ->.
    split; [|split].
    - apply (entry_element i loc al labi (Some (ob, ri)) _ Pi Eei). exists ob, ri. auto.
    - apply (entry_label j res ar labj (Some (ob', rj)) _ Pj Eej). exists ob', rj. split; [reflexivity|]. split; [exact Ht'|]. unfold label_at_loc. rewrite Kj, Hl'. reflexivity.
    - apply (leads_iff i role j loc al res ar Pi Pj) in Hl. apply Hl. }
  exists ts. split; [exact Hn|]. split.
  - intros i role j. rewrite Hin. split.
    + intros Hl. destruct (Hts i role j Hl) as (loc & al & res & ar & A & B & (C & D) & (F & G) & K). exists loc, al, res, ar. split; [exact A|]. split; [exact B|]. split; [eauto|]. split; [eauto|exact K].
    + intros (loc & al & res & ar & A & B & (C & e & D) & (F & l & G) & K). apply (leads_iff i role j loc al res ar A B). split; [exact K|].
      destruct (part_entry _ _ _ A) as (li & oi & ei1 & ei2 & Ei & _). destruct (part_entry _ _ _ B) as (lj & oj & ej1 & ej2 & Ej & _). split.
      * destruct (proj2 (entry_element i loc al li oi e A Ei) (conj C D)) as (ob & r & -> & _). eauto.
      * destruct (proj2 (entry_label j res ar lj oj l B Ej) (conj F G)) as (ob & r & -> & _). eauto.
  - rewrite E. clear -Hin Hts. assert (Hall : forall t, In t ts -> leads arcs (map loc_of entries) (fst (fst t)) (snd (fst t)) (snd t)) by (intros [[i role] j] Ht; apply Hin, Ht).
    clear Hin. induction ts as [|t ts IH]; [constructor|]. cbn [map]. constructor.
    + destruct (Hts _ _ _ (Hall t (or_introl eq_refl))) as (loc & al & res & ar & A & B & (C & D) & (F & G) & K). exists loc, al, res, ar. auto.
    + apply IH. intros t' Ht'. apply Hall. right. exact Ht'.
Qed.
End LabelLink.
