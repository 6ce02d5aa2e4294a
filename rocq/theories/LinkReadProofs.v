(** Which links can be read, and combined. *)
From Verif Require Import Base Regex QNameModel ErrBase ErrTable ErrModel CtxModel InlineModel NetModel NetSpec NetProofs NetLinkProofs NetCombineProofs NetProps
  LangModel DtsProofs LinkModel LinkSpec LinkProofs LinkLoopProofs LinkOrderProofs LinkLabelProofs LinkNetProofs LinkDocProofs LinkReportProofs LinkOpenProofs
  CombineOpenProofs LinkCombineProofs LinkReadSpec.
Local Open Scope nat_scope.

Lemma accepts_iff k t : accepts k t = None <-> admits k t.
Proof. destruct k, t; cbn; intuition (congruence || discriminate || auto). Qed.

Local Opaque insert create.

(** ** The order of links *)

Lemma extended_iff x : in_namespace link_ns x && has_type xlink_ns [u "extended"] x = true <->
  (exists local, x_tag x = Some (clark LINKBASE local)) /\ xl "type" x = Some (u "extended").
Proof.
  rewrite andb_true_iff. unfold in_namespace, has_type, is_some_tag. rewrite type_xl, link_ns_eq. unfold clark.
  destruct (x_tag x) as [t|]; [|split; [intros [[=] _]|intros [(l & [=]) _]]]. rewrite starts_with_spec. destruct (xl "type" x) as [ty|].
  - cbn [existsb andb]. rewrite orb_false_r, str_eqb_eq. split.
    + intros ((r & ->) & ->). split; [|reflexivity]. exists r. rewrite clark_split. reflexivity.
    + intros ((l & E) & E2). assert (Et : t = u "{" ++ LINKBASE ++ u "}" ++ l) by congruence. split; [|congruence]. exists l. rewrite Et. apply clark_split.
  - split; [intros (_ & [=])|intros (_ & [=])].
Qed.
Lemma chosen_filter {A} (P : A -> Prop) (b : A -> bool) : (forall a, b a = true <-> P a) -> forall l l', chosen P l l' <-> l' = filter b l.
Proof.
  intros H. induction l as [|a l IH]; intros l'; cbn.
  - split; [inversion 1; reflexivity|intros ->; constructor].
  - destruct (b a) eqn:E.
    + split; [inversion 1; subst; [f_equal; apply IH; assumption|exfalso; apply H in E; contradiction]|intros ->; constructor; [apply H, E|apply IH; reflexivity]].
    + split; [inversion 1; subst; [exfalso; apply H in H3; congruence|apply IH; assumption]|intros ->; constructor; [rewrite <- H; congruence|apply IH; reflexivity]].
Qed.
Lemma filter_flat {A B} (b : B -> bool) (f : A -> list B) l : filter b (flat_map f l) = flat_map (fun a => filter b (f a)) l.
Proof. induction l as [|a l IH]; [reflexivity|]. cbn. rewrite filter_app, IH. reflexivity. Qed.
Lemma two_parts_filter l l1 l2 : (forall p, In p l -> usual (fst p)) -> in_two_parts looks_standard l l1 l2 ->
  l1 = filter is_standard l /\ l2 = filter (fun p => negb (is_standard p)) l.
Proof.
  intros Hu H. induction H as [|p l l1 l2 Hp H IH|p l l1 l2 Hp H IH]; [split; reflexivity| |]; cbn [filter];
    pose proof (standard_iff p (Hu p (or_introl eq_refl))) as Hs; destruct (IH (fun q Hq => Hu q (or_intror Hq))) as [-> ->].
  - apply Hs in Hp. rewrite Hp. split; reflexivity.
  - rewrite <- Hs in Hp. destruct (is_standard p); [congruence|]. split; reflexivity.
Qed.
Lemma links_as_read_iff docs l : all_usual docs -> (links_as_read docs l <-> l = sorted_links docs).
Proof.
  intros Hu.
  assert (Hl : forall l0, chosen (fun p => (exists local, x_tag (fst p) = Some (clark LINKBASE local)) /\ xl "type" (fst p) = Some (u "extended")) (flat_map (inner []) docs) l0 <-> l0 = all_links docs).
  { intros l0. rewrite (chosen_filter _ (fun p : xml * list xml => in_namespace link_ns (fst p) && has_type xlink_ns [u "extended"] (fst p))); [|intros a; apply extended_iff].
    rewrite filter_flat. reflexivity. }
  assert (Hus : forall p, In p (all_links docs) -> usual (fst p)) by (intros [x around] Hp; apply in_all_links in Hp; apply (Hu _ _ Hp)).
  split.
  - intros (l0 & l1 & l2 & A & B & ->). apply Hl in A. subst l0. destruct (two_parts_filter _ _ _ Hus B) as [-> ->]. reflexivity.
  - intros ->. exists (all_links docs), (filter is_standard (all_links docs)), (filter (fun p => negb (is_standard p)) (all_links docs)).
    split; [apply Hl; reflexivity|]. split; [apply two_parts, Hus|reflexivity].
Qed.

(** ** One link *)

Section Link.
Variable element_str : xml -> str.
Variable number : str -> Q.
Variable find_id : str -> option found.

Lemma speaks_lang x around : (exists lang, speaks x around lang) <-> exists lang, elem_lang (x :: around) = Some lang.
Proof. split; intros [lang H]; exists lang; apply elem_lang_some; exact H. Qed.
Lemma not_speaks x around lang : elem_lang (x :: around) = None -> ~ speaks x around lang.
Proof. intros H Hs. apply elem_lang_some in Hs. congruence. Qed.

Lemma resource_type_iff x around es r e : usual x -> xl "type" x = Some (u "resource") -> parse_xml_resource element_str x around es = Ok (r, e) ->
  forall t, (exists r0, r = Some r0 /\ resource_type r0 = t) <-> stands_for find_id x around t.
Proof.
  intros Hu Ht H t. unfold parse_xml_resource in H. apply bind_ok in H as (ty & _ & H). destruct (negb (str_eqb ty (u "resource"))); [discriminate|].
  apply bind_ok in H as (lab & _ & H). apply bind_ok in H as (role & _ & H). destruct (x_tag x) as [tag|] eqn:Etag; [|discriminate].
  assert (Hno : xl "type" x <> Some (u "locator")) by (rewrite Ht; intros E; apply locator_resource; congruence).
  assert (Hinv : stands_for find_id x around t -> (t = OLabel /\ part_of (u "label") tag /\ elem_lang (x :: around) <> None) \/
    (t = OFootnote /\ ~ part_of (u "label") tag /\ part_of (u "footnote") tag /\ elem_lang (x :: around) <> None) \/
    (t = OReference /\ ~ part_of (u "label") tag /\ ~ part_of (u "footnote") tag /\ part_of (u "reference") tag)).
  { intros H0. inversion H0; subst; try contradiction; rewrite Etag in *.
    - left. assert (t0 = tag) as -> by congruence. split; [reflexivity|]. split; [assumption|]. intros E. eapply not_speaks; eauto.
    - right. left. assert (t0 = tag) as -> by congruence. repeat (split; [reflexivity || assumption|]). intros E. eapply not_speaks; eauto.
    - right. right. assert (t0 = tag) as -> by congruence. auto. }
  destruct (contains (u "label") tag) eqn:E1; [apply contains_part in E1|apply no_part in E1].
  - destruct (elem_lang (x :: around)) as [lang|] eqn:El.
    + assert (Er : exists l, r = Some (RLabel l)) by (eexists; injection H as <- _; reflexivity). destruct Er as [l ->]. split.
      * intros (r0 & [= <-] & <-). apply elem_lang_some in El. eapply for_label; eauto.
      * intros H0. exists (RLabel l). split; [reflexivity|]. destruct (Hinv H0) as [(-> & _)|[(_ & N & _)|(_ & N & _)]]; [reflexivity|contradiction|contradiction].
    + apply bind_ok in H as (? & _ & H). injection H as <- _. split; [intros (r0 & [=] & _)|]. intros H0. exfalso. destruct (Hinv H0) as [(_ & _ & N)|[(_ & N & _)|(_ & N & _)]]; [congruence|contradiction|contradiction].
  - destruct (contains (u "footnote") tag) eqn:E2; [apply contains_part in E2|apply no_part in E2].
    + destruct (elem_lang (x :: around)) as [lang|] eqn:El.
      * assert (Er : exists r0, r = Some r0 /\ resource_type r0 = OFootnote) by (eexists; split; [injection H as <- _; reflexivity|reflexivity]). destruct Er as (r1 & -> & Er). split.
        -- intros (r0 & [= <-] & <-). rewrite Er. apply elem_lang_some in El. eapply for_footnote; eauto.
        -- intros H0. exists r1. split; [reflexivity|]. destruct (Hinv H0) as [(_ & N & _)|[(-> & _)|(_ & _ & N & _)]]; [contradiction|exact Er|contradiction].
      * apply bind_ok in H as (? & _ & H). injection H as <- _. split; [intros (r0 & [=] & _)|]. intros H0. exfalso. destruct (Hinv H0) as [(_ & N & _)|[(_ & _ & _ & N)|(_ & _ & N & _)]]; [contradiction|congruence|contradiction].
    + destruct (contains (u "reference") tag) eqn:E3; [apply contains_part in E3|apply no_part in E3].
      * apply bind_ok in H as (c & _ & H). assert (Er : exists r0, r = Some r0 /\ resource_type r0 = OReference) by (eexists; split; [injection H as <- _; reflexivity|reflexivity]). destruct Er as (r1 & -> & Er). split.
        -- intros (r0 & [= <-] & <-). rewrite Er. eapply for_reference; eauto.
        -- intros H0. exists r1. split; [reflexivity|]. destruct (Hinv H0) as [(_ & N & _)|[(_ & _ & N & _)|(-> & _)]]; [contradiction|contradiction|exact Er].
      * apply bind_ok in H as (? & _ & H). injection H as <- _. split; [intros (r0 & [=] & _)|]. intros H0. exfalso. destruct (Hinv H0) as [(_ & N & _)|[(_ & _ & N & _)|(_ & _ & _ & N)]]; contradiction.
Qed.

Section One.
Variable link : xml.
Variable outside : list xml.
Hypothesis Hlink : usual link.
Hypothesis Hinside : forall x around, inside link outside x around -> usual x.

Lemma entry_type es1 entries es2 : link_entries element_str find_id 0 (link_parts link outside) es1 = Ok (entries, es2) ->
  forall j x around lab o, nth_error (link_parts link outside) j = Some (x, around) -> nth_error entries j = Some (lab, o) ->
  forall t, (exists ob r, o = Some (ob, r) /\ o_type ob = t) <-> stands_for find_id x around t.
Proof.
  intros Hentries j x around lab o Hp He t. destruct (part_entry element_str find_id _ _ Hlink Hinside _ _ _ Hentries _ _ _ Hp) as (lab' & o' & e1 & e2 & He' & _ & Ho).
  rewrite He in He'. injection He' as <- <-. destruct (part_type _ _ Hlink Hinside _ _ _ Hp) as [Hu [Ht|Ht]]; destruct Ht as (_ & _ & Ht).
  - destruct (link_object_locator _ _ _ _ _ _ _ _ Hu Ht Ho) as (href & Hh & ->). split.
    + intros (ob & r & E & <-). destruct (find_id (fragment href)) as [f|] eqn:Ef; [|discriminate]. injection E as <- _.
      destruct f; cbn; [eapply for_concept|eapply for_element|eapply for_fact]; eauto.
    + intros H. assert (Hno : xl "type" x <> Some (u "resource")) by (rewrite Ht; intros E; apply locator_resource; congruence).
      inversion H; subst; try contradiction; assert (href0 = href) as -> by congruence; match goal with E : find_id _ = _ |- _ => rewrite E end; cbn; eauto.
  - destruct (link_object_resource _ _ _ _ _ _ _ _ Hu Ht Ho) as (r & Hr & ->). rewrite <- (resource_type_iff _ _ _ _ _ Hu Ht Hr t). split.
    + intros (ob & r0 & E & <-). destruct r as [r|]; [|discriminate]. injection E as <- _. eauto.
    + intros (r0 & -> & <-). cbn. eauto.
Qed.

Lemma acceptable_iff k es1 entries es2 : link_entries element_str find_id 0 (link_parts link outside) es1 = Ok (entries, es2) ->
  (acceptable k (map loc_of entries) <-> fits find_id k link outside).
Proof.
  intros H. split.
  - intros Ha type x around t Hel Hst. assert (Hel' : exists ty, (ty = "locator" \/ ty = "resource")%string /\ element_of link outside ty x around).
    { destruct Hel as (A & B & _). inversion Hst; subst; [exists "locator"%string|exists "locator"%string|exists "locator"%string|exists "resource"%string..]; (split; [auto|]); (split; [exact A|split; [exact B|assumption]]). }
    destruct Hel' as (ty & Hty & Hel'). destruct (in_part _ _ Hlink ty x around Hty Hel') as (j & Pj).
    destruct (part_entry element_str find_id _ _ Hlink Hinside _ _ _ H _ _ _ Pj) as (lab & o & e1 & e2 & Ej & _).
    destruct (proj2 (entry_type _ _ _ H j x around lab o Pj Ej t) Hst) as (ob & r & -> & <-).
    apply accepts_iff, (Ha (loc_of (lab, Some (ob, r))) ob); [apply in_map; eapply nth_error_In, Ej|reflexivity].
  - intros Hf l o Hl Ho. apply in_map_iff in Hl as ([lab o'] & <- & Hl). cbn [loc_of l_obj snd] in Ho. destruct o' as [[ob r]|]; [|discriminate]. cbn in Ho. injection Ho as <-.
    apply In_nth_error in Hl as (j & Hj). destruct (entry_part element_str find_id _ _ _ _ _ H j lab (Some (ob, r)) Hj) as (x & around & Pj).
    apply accepts_iff. destruct (part_type _ _ Hlink Hinside _ _ _ Pj) as [_ [Ht|Ht]]; (eapply Hf; [exact Ht|apply (entry_type _ _ _ H j x around lab _ Pj Hj); eauto]).
Qed.

Variable edge_order : nat -> list edge -> list edge.
Variable root_order : nat -> list nat -> list nat.
Hypothesis Horders : orders edge_order root_order.

Lemma run_iff k role st : (exists r, run_factory element_str number find_id edge_order root_order k link outside role st = Ok r) <-> readable find_id k link outside.
Proof.
  destruct (match k with KLabel => true | _ => false end) eqn:Ek; [destruct k; try discriminate; apply label_run_iff; assumption|].
  assert (Er : readable find_id k link outside <-> complete_link link outside /\ fits find_id k link outside) by (destruct k; try discriminate; reflexivity). rewrite Er. split.
  - intros [[ws st'] H]. apply run_factory_inv in H as (arcs & es1 & entries & es2 & h & nets & dups & added & A & B & C & _). split; [split|].
    + apply (arcs_complete_iff number link outside Hlink Hinside (ls_errors st)). eauto.
    + apply (parts_complete_iff element_str find_id link outside Hlink Hinside es1). eauto.
    + apply (acceptable_iff k _ _ _ B), (parse_link_ok_iff k (edge_order (ls_runs st)) (root_order (ls_runs st)) arcs). eauto.
  - intros [[H1 H2] H]. destruct (proj2 (arcs_complete_iff number link outside Hlink Hinside (ls_errors st)) H1) as [[arcs es1] A].
    destruct (proj2 (parts_complete_iff element_str find_id link outside Hlink Hinside es1) H2) as [[entries es2] B].
    destruct (proj2 (parse_link_ok_iff k (edge_order (ls_runs st)) (root_order (ls_runs st)) arcs (map loc_of entries)) (proj2 (acceptable_iff k _ _ _ B) H)) as [[[h nets] dups] C].
    unfold run_factory. fold (link_parts link outside). rewrite A. cbn [bind fst snd]. rewrite B. cbn [bind fst snd]. rewrite C. cbn [bind].
    destruct k; try discriminate; cbn [bind]; eauto.
Qed.

Lemma runs_iff role : forall ks st, (exists r, run_factories element_str number find_id edge_order root_order ks link outside role st = Ok r) <->
  forall k, In k ks -> readable find_id k link outside.
Proof.
  induction ks as [|k ks IH]; intros st; cbn [run_factories]; [split; [intros _ k []|eauto]|]. rewrite bind_some. split.
  - intros (a & Ha & r & H). apply bind_ok in H as (b & Hb & _). intros k' [<-|Hk]; [apply (run_iff k role st); eauto|].
    apply (proj1 (IH (snd a))); eauto.
  - intros H. destruct (proj2 (run_iff k role st) (H k (or_introl eq_refl))) as [a Ha]. exists a. split; [exact Ha|]. apply bind_some.
    destruct (proj2 (IH (snd a)) (fun k' Hk => H k' (or_intror Hk))) as [b Hb]. eauto.
Qed.

Lemma one_link_iff d st : x_tag link <> None -> ((exists r, one_link element_str number find_id edge_order root_order (link, outside) d st = Ok r) <->
  (forall k, xl "role" link <> None -> link_kind link k -> readable find_id k link outside)).
Proof.
  intros Htag. unfold one_link. cbn [fst snd]. rewrite (opt_role _ Hlink). cbn [bind]. destruct (xl "role" link) as [role|].
  - assert (E : (exists r, (do! r <- parse_xml_link element_str number find_id edge_order root_order link outside role st; Ok (extend_role d role (fst r), snd r)) = Ok r) <->
      exists r, parse_xml_link element_str number find_id edge_order root_order link outside role st = Ok r).
    { rewrite bind_some. split; [intros (a & Ha & _); eauto|intros [a Ha]; eauto]. }
    rewrite E. unfold parse_xml_link. destruct (x_tag link) as [t|] eqn:Et; [|congruence]. pose proof (link_kind_factories link t) as Hk. destruct (factories t) as [|k0 ks] eqn:Ef.
    + split; [intros _ k _ Hkk; apply (Hk k Et) in Hkk; destruct Hkk|]. intros _. destruct (can_type (ls_errors st) link t) as [es Ees]. rewrite Ees. cbn [bind]. eauto.
    + rewrite (runs_iff role (k0 :: ks) st). split; [intros H k _ Hkk; apply H, (Hk k Et), Hkk|intros H k Hkk; apply H; [discriminate|apply (Hk k Et), Hkk]].
  - split; [intros _ k []; reflexivity|]. intros _. destruct (can_role (ls_errors st) link) as [es Ees]. rewrite Ees. cbn [bind]. eauto.
Qed.
End One.

Lemma links_loop_iff edge_order root_order : orders edge_order root_order -> forall l d st,
  (forall p, In p l -> usual (fst p) /\ x_tag (fst p) <> None /\ forall x around, inside (fst p) (snd p) x around -> usual x) ->
  ((exists r, links_loop element_str number find_id edge_order root_order l d st = Ok r) <->
   forall link outside k, In (link, outside) l -> xl "role" link <> None -> link_kind link k -> readable find_id k link outside).
Proof.
  intros Ho. induction l as [|[link outside] l IH]; intros d st Hu; cbn [links_loop]; [split; [intros _ link outside k []|eauto]|].
  destruct (Hu _ (or_introl eq_refl)) as (A & B & C). cbn [fst snd] in A, B, C. rewrite bind_some. split.
  - intros (a & Ha & Hr). intros link' outside' k [[= <- <-]|Hp].
    + apply (one_link_iff link outside A C edge_order root_order Ho d st B). eauto.
    + apply (proj1 (IH _ _ (fun p Hp => Hu p (or_intror Hp))) Hr), Hp.
  - intros H. destruct (proj2 (one_link_iff link outside A C edge_order root_order Ho d st B)) as [a Ha]; [intros k; apply H; left; reflexivity|].
    exists a. split; [exact Ha|]. apply (IH _ _ (fun p Hp => Hu p (or_intror Hp))). intros link' outside' k Hp. apply H. right. exact Hp.
Qed.

(** ** What a run needs *)

Section Run.
Variable r : run.
Hypothesis Hok : run_ok element_str number find_id r.
Hypothesis Hlink : usual (r_link r).
Hypothesis Hinside : forall x around, inside (r_link r) (r_out r) x around -> usual x.
Hypothesis Hlogical : is_physical (r_kind r) = false.

Lemma run_begins : r_nets r <> [] <-> begins find_id (r_link r) (r_out r).
Proof.
  destruct Hok as (es & es1 & es2 & eo & ro & dups & Heo & Hro & Ha & He & Hp). split.
  - intros Hne. destruct (r_nets r) as [|net nets] eqn:En; [congruence|]. clear Hne.
    assert (Hroot : exists n, In n net).
    { pose proof Hp as Hp'. apply parse_link_inv in Hp' as (_ & _ & _ & roots & _ & E). rewrite Hlogical in E. destruct roots as [|n roots]; [discriminate|]. injection E as -> _. exists n. left. reflexivity. }
    destruct Hroot as [n Hn].
    assert (Hlt : exists x, nth_error (r_heap r) n = Some x).
    { pose proof Hp as Hp'. assert (Hin : In net (r_nets r)) by (rewrite En; left; reflexivity).
      pose proof (root_inside element_str number find_id [r] (fun r' Hr' => match Hr' with or_introl E => eq_ind r _ Hok r' E | or_intror F => match F with end end) r net n (or_introl eq_refl) Hin Hn) as Hlt.
      destruct (nth_error (r_heap r) n) eqn:E; [eauto|]. apply nth_error_None in E. lia. }
    destruct Hlt as [x Hx]. destruct (run_node element_str number find_id r Hok Hlink Hinside Hlogical n x Hx) as (l & loc & al & Mx & Hel & Hloc & Hlab).
    exists (NetModel.l_label l). split; [exists loc, al, (o_key (n_obj x)); auto|]. intros xa aa Hela Hto.
    destruct (element_arc number _ _ Hlink Hinside _ _ _ Ha xa aa Hela) as (arc & Hin & Fa & Ta & _).
    apply (proj1 (C21_roots _ _ _ _ _ _ _ _ _ _ _ Hp Hro Mx) (ex_intro _ net (conj (or_introl eq_refl) Hn)) arc); [|congruence].
    unfold relevant. rewrite Hlogical. exact Hin.
  - intros (s & (loc & al & e & Hel & Hloc & Hlab) & Hno).
    destruct (run_has_node element_str number find_id r Hok Hlink Hinside Hlogical loc al e Hel Hloc) as (n & x & l & Mx & _ & Hl).
    destruct (proj2 (C21_roots _ _ _ _ _ _ _ _ _ _ _ Hp Hro Mx)) as (net & A & _); [|intros E; rewrite E in A; destruct A].
    unfold relevant. rewrite Hlogical. intros arc Hin Hto. destruct (arc_element number _ _ Hlink Hinside _ _ _ Ha arc Hin) as (xa & aa & Hela & Fa & Ta & _).
    apply (Hno xa aa Hela). congruence.
Qed.

Lemma below_leads : forall m n x l y l', made_for (r_heap r) (map loc_of (r_entries r)) n x l -> made_for (r_heap r) (map loc_of (r_entries r)) m y l' ->
  below (r_heap r) n m -> leads_on find_id (r_link r) (r_out r) (NetModel.l_label l) (NetModel.l_label l').
Proof.
  intros m n x l y l' Mx My (c & Hc & Hr). destruct Hok as (es & es1 & es2 & eo & ro & dups & Heo & Hro & Ha & He & Hp).
  assert (Hstep : forall a z lz b w lw, made_for (r_heap r) (map loc_of (r_entries r)) a z lz -> made_for (r_heap r) (map loc_of (r_entries r)) b w lw -> In b (get_children (r_heap r) a) ->
    exists arc aa, element_of (r_link r) (r_out r) "arc" arc aa /\ xl "from" arc = Some (NetModel.l_label lz) /\ xl "to" arc = Some (NetModel.l_label lw) /\ names find_id (r_link r) (r_out r) (NetModel.l_label lw)).
  { intros a z lz b w lw Ma Mb Hk. unfold get_children in Hk. rewrite (proj1 Ma) in Hk.
    apply (C19_logical_child_iff_arc _ _ _ _ _ _ _ _ _ _ _ _ _ _ Hp Heo Hlogical Ma Mb) in Hk as (role & arc & Hin & F & T & _).
    destruct (arc_element number _ _ Hlink Hinside _ _ _ Ha arc Hin) as (xa & aa & Hela & Fa & Ta & _). exists xa, aa. split; [exact Hela|]. split; [congruence|]. split; [congruence|].
    destruct (run_node element_str number find_id r Hok Hlink Hinside Hlogical b w (proj1 Mb)) as (l1 & loc & al & M1 & A & B & C). assert (l1 = lw) as -> by (destruct Mb, M1; congruence).
    exists loc, al, (o_key (n_obj w)). auto. }
  revert y l' My. induction Hr as [|j k Hr IH Hk]; intros y l' My.
  - destruct (Hstep _ _ _ _ _ _ Mx My Hc) as (arc & aa & A & B & C & D). eapply on_one; eauto.
  - assert (Hj : exists z lz, made_for (r_heap r) (map loc_of (r_entries r)) j z lz).
    { unfold get_children in Hk. destruct (nth_error (r_heap r) j) as [z|] eqn:Ez; [|destruct Hk]. destruct (run_node element_str number find_id r Hok Hlink Hinside Hlogical j z Ez) as (lz & _ & _ & Mz & _). eauto. }
    destruct Hj as (z & lz & Mz). destruct (Hstep _ _ _ _ _ _ Mz My Hk) as (arc & aa & A & B & C & D). eapply on_more; [exact (IH z lz Mz)|eauto..].
Qed.
Lemma leads_below : forall s t, leads_on find_id (r_link r) (r_out r) s t -> forall n x l m y l', made_for (r_heap r) (map loc_of (r_entries r)) n x l -> made_for (r_heap r) (map loc_of (r_entries r)) m y l' ->
  NetModel.l_label l = s -> NetModel.l_label l' = t -> below (r_heap r) n m.
Proof.
  destruct Hok as (es & es1 & es2 & eo & ro & dups & Heo & Hro & Ha & He & Hp).
  assert (Hstep : forall xa aa a z lz b w lw, element_of (r_link r) (r_out r) "arc" xa aa -> xl "from" xa = Some (NetModel.l_label lz) -> xl "to" xa = Some (NetModel.l_label lw) ->
    made_for (r_heap r) (map loc_of (r_entries r)) a z lz -> made_for (r_heap r) (map loc_of (r_entries r)) b w lw -> In b (get_children (r_heap r) a)).
  { intros xa aa a z lz b w lw Hela F T Ma Mb. unfold get_children. rewrite (proj1 Ma). destruct (element_arc number _ _ Hlink Hinside _ _ _ Ha xa aa Hela) as (arc & Hin & Fa & Ta & Ra).
    apply (C19_logical_child_iff_arc _ _ _ _ _ _ _ _ _ _ _ _ _ _ Hp Heo Hlogical Ma Mb). exists (a_role arc), arc. repeat split; [exact Hin|congruence|congruence]. }
  intros s t H. induction H as [xa aa t Hela F T N|xa aa t v H IH Hela F T N]; intros n x l m y l' Mx My El El'.
  - exists m. split; [|constructor]. eapply Hstep; eauto; congruence.
  - assert (Nt : names find_id (r_link r) (r_out r) t) by (destruct H; assumption). destruct Nt as (loc & al & e & Hel & Hloc & Hlab).
    destruct (run_has_node element_str number find_id r Hok Hlink Hinside Hlogical loc al e Hel Hloc) as (j & z & lz & Mz & _ & Hl).
    assert (Ej : NetModel.l_label lz = t) by congruence. destruct (IH n x l j z lz Mx Mz El Ej) as (c & Hc & Hr). exists c. split; [exact Hc|]. eapply reach_step; [exact Hr|].
    eapply Hstep; eauto; congruence.
Qed.

Lemma run_ends : ends r <-> ~ turns find_id (r_link r) (r_out r).
Proof.
  split.
  - intros He (s & Hc & Hl). assert (Hn : names find_id (r_link r) (r_out r) s) by (destruct Hc; assumption). destruct Hn as (loc & al & e & Hel & Hloc & Hlab).
    destruct (run_has_node element_str number find_id r Hok Hlink Hinside Hlogical loc al e Hel Hloc) as (n & x & l & Mx & _ & Hll). assert (El : NetModel.l_label l = s) by congruence.
    rewrite <- El in Hc. destruct (proj2 (run_comes element_str number find_id r Hok Hlink Hinside Hlogical n x l Mx) Hc) as (net & a & Hnet & Han & Hr).
    pose proof (He net a Hnet Han) as Hf. apply finite_iff_acyclic in Hf. apply (Hf n Hr). eapply leads_below; eauto.
  - intros Hno net a Hnet Han. apply finite_iff_acyclic. intros n Hr Hb.
    assert (Hx : exists x, nth_error (r_heap r) n = Some x).
    { destruct Hb as (c & Hc & _). unfold get_children in Hc. destruct (nth_error (r_heap r) n); [eauto|destruct Hc]. }
    destruct Hx as [x Hx]. destruct (run_node element_str number find_id r Hok Hlink Hinside Hlogical n x Hx) as (l & _ & _ & Mx & _). apply Hno. exists (NetModel.l_label l). split.
    + apply (run_comes element_str number find_id r Hok Hlink Hinside Hlogical n x l Mx). eauto.
    + eapply below_leads; eauto.
Qed.
End Run.

(** ** All links *)

Variable edge_order : nat -> list edge -> list edge.
Variable root_order : nat -> list nat -> list nat.
Hypothesis Horders : orders edge_order root_order.
Variable shuffle : list nat -> list nat.
Hypothesis Hshuffle : some_order shuffle.

(** The runs for a kind and role, in order, are those of the links. *)
Lemma keys_pairs : forall (rs : list run) (l : list (xml * list xml)), map r_key rs = flat_map expected l ->
  forall k R, is_physical k = false ->
  (forall pre r mid r' post, runs_for rs k R = pre ++ r :: mid ++ r' :: post ->
     exists pre' mid' post', l = pre' ++ (r_link r, r_out r) :: mid' ++ (r_link r', r_out r') :: post' /\
       xl "role" (r_link r) = Some R /\ xl "role" (r_link r') = Some R /\ link_kind (r_link r) k /\ link_kind (r_link r') k) /\
  (forall pre link outside mid link' outside' post, l = pre ++ (link, outside) :: mid ++ (link', outside') :: post ->
     xl "role" link = Some R -> xl "role" link' = Some R -> link_kind link k -> link_kind link' k ->
     exists pre' r mid' r' post', runs_for rs k R = pre' ++ r :: mid' ++ r' :: post' /\ r_link r = link /\ r_out r = outside /\ r_link r' = link' /\ r_out r' = outside').
Proof.
  intros rs l E k R Hk.
  set (sel := fun p : xml * list xml => match xl "role" (fst p), x_tag (fst p) with Some r, Some t => str_eqb r R && existsb (fun k' => wclass_eqb (class_of_kind k') (class_of_kind k) && negb (is_physical k')) (factories t) | _, _ => false end).
  assert (Hsel : forall p, sel p = true <-> xl "role" (fst p) = Some R /\ link_kind (fst p) k).
  { intros [link outside]. unfold sel. cbn [fst]. destruct (xl "role" link) as [r|]; [|split; [discriminate|intros [[=] _]]].
    destruct (x_tag link) as [t|] eqn:Et; [|split; [discriminate|intros [_ (t & Et' & _)]; congruence]].
    rewrite andb_true_iff, str_eqb_eq, existsb_exists, (link_kind_factories link t k Et). split.
    - intros [-> (k' & Hk' & Hc)]. apply andb_true_iff in Hc as [Hc Hp]. destruct (wclass_reflect (class_of_kind k') (class_of_kind k)) as [Ec|]; [|discriminate]. split; [reflexivity|].
      apply negb_true_iff in Hp. assert (k' = k) as <- by (apply logical_class; assumption). exact Hk'.
    - intros [[= ->] Hin]. split; [reflexivity|]. exists k. split; [exact Hin|]. rewrite Hk. destruct (wclass_reflect (class_of_kind k) (class_of_kind k)); [reflexivity|congruence]. }
  assert (Hmap : map (fun r => (r_link r, r_out r)) (runs_for rs k R) = filter sel l).
  { assert (G : forall ks' : list (xml * list xml * str * kind), map r_key rs = ks' ->
      map (fun r => (r_link r, r_out r)) (runs_for rs k R) =
      map (fun q => fst (fst q)) (filter (fun q => str_eqb (snd (fst q)) R && negb (is_physical (snd q)) && wclass_eqb (class_of_kind (snd q)) (class_of_kind k)) ks')).
    { clear. unfold runs_for. intros ks' <-. induction rs as [|r rs IH]; [reflexivity|]. cbn [map filter]. assert (Ek : r_key r = (r_link r, r_out r, r_role r, r_kind r)) by reflexivity. rewrite Ek. cbn [fst snd].
      destruct (str_eqb (r_role r) R && negb (is_physical (r_kind r)) && wclass_eqb (class_of_kind (r_kind r)) (class_of_kind k)); cbn [map]; rewrite IH; reflexivity. }
    rewrite (G _ E). clear G E. induction l as [|[link outside] l IH]; [reflexivity|]. cbn [flat_map filter]. rewrite filter_app, map_app, IH.
    assert (One : map (fun q : xml * list xml * str * kind => fst (fst q)) (filter (fun q => str_eqb (snd (fst q)) R && negb (is_physical (snd q)) && wclass_eqb (class_of_kind (snd q)) (class_of_kind k)) (expected (link, outside))) =
      if sel (link, outside) then [(link, outside)] else []).
    { unfold expected, sel. cbn [fst snd]. destruct (xl "role" link) as [r|]; [|reflexivity]. destruct (x_tag link) as [t|]; [|reflexivity].
      destruct (str_eqb r R) eqn:Er; cycle 1. { cbn [andb]. induction (factories t) as [|k' ks' IHk]; [reflexivity|]. cbn [map filter fst snd]. rewrite Er. cbn [andb]. exact IHk. }
      cbn [andb].
      assert (Hf : factories t = [] \/ (exists k', factories t = [k']) \/ factories t = [KPhysicalDefinition; KLogicalDefinition]).
      { unfold factories. repeat (match goal with |- context [if ?b then _ else _] => destruct b end; eauto). }
      destruct Hf as [-> | [(k' & ->) | ->]]; cbn [map filter existsb fst snd]; rewrite ?Er; [reflexivity| |].
      - rewrite orb_false_r, (andb_comm (wclass_eqb _ _)). cbn [andb]. destruct (negb (is_physical k') && wclass_eqb (class_of_kind k') (class_of_kind k)); reflexivity.
      - cbn [is_physical negb andb]. rewrite andb_false_r, orb_false_r, orb_false_l, andb_true_r. destruct (wclass_eqb (class_of_kind KLogicalDefinition) (class_of_kind k)); reflexivity. }
    rewrite One. destruct (sel (link, outside)); reflexivity. }
  assert (Hsplit : forall (l0 pre : list (xml * list xml)) p mid q post, filter sel l0 = pre ++ p :: mid ++ q :: post -> exists pre' mid' post', l0 = pre' ++ p :: mid' ++ q :: post' /\ sel p = true /\ sel q = true).
  { assert (H1 : forall (l0 pre : list (xml * list xml)) p post, filter sel l0 = pre ++ p :: post -> exists pre' post', l0 = pre' ++ p :: post' /\ sel p = true /\ filter sel post' = post).
    { clear. induction l0 as [|a l0 IH]; intros pre p post H; cbn in H; [destruct pre; discriminate|]. destruct (sel a) eqn:Es.
      - destruct pre as [|b pre]; injection H as -> H; [exists [], l0; auto|]. destruct (IH _ _ _ H) as (pre' & post' & -> & A & B). exists (b :: pre'), post'. auto.
      - destruct (IH _ _ _ H) as (pre' & post' & -> & A & B). exists (a :: pre'), post'. auto. }
    intros l0 pre p mid q post H. destruct (H1 _ _ _ _ H) as (pre' & post' & -> & A & B). destruct (H1 _ _ _ _ B) as (mid' & post'' & -> & C & D). exists pre', mid', post''. auto. }
  split.
  - intros pre r mid r' post Er. rewrite Er, !map_app in Hmap. cbn [map] in Hmap. rewrite map_app in Hmap. cbn [map] in Hmap. symmetry in Hmap.
    destruct (Hsplit _ _ _ _ _ _ Hmap) as (pre' & mid' & post' & -> & A & B). apply Hsel in A as [A1 A2]. apply Hsel in B as [B1 B2]. exists pre', mid', post'. auto.
  - intros pre link outside mid link' outside' post -> A1 B1 A2 B2.
    assert (A : sel (link, outside) = true) by (apply Hsel; auto). assert (B : sel (link', outside') = true) by (apply Hsel; auto).
    rewrite filter_app in Hmap. cbn [filter] in Hmap. rewrite A, filter_app in Hmap. cbn [filter] in Hmap. rewrite B in Hmap.
    apply map_eq_app in Hmap as (p1 & p2 & E1 & _ & E2). apply map_eq_cons in E2 as (r & p3 & -> & Er & E3). apply map_eq_app in E3 as (p4 & p5 & -> & _ & E4). apply map_eq_cons in E4 as (r' & p6 & -> & Er' & _).
    exists p1, r, p4, r', p6. injection Er as <- <-. injection Er' as <- <-. auto.
Qed.

Lemma joins_logical k : joins k <-> is_physical k = false.
Proof. destruct k; cbn; unfold joins; intuition discriminate. Qed.

Theorem networks_iff docs es l : all_usual docs -> links_as_read docs l ->
  ((exists fuel r, parse_networks element_str number find_id edge_order root_order fuel shuffle docs es = Ok r) <->
   (forall link outside k, extended_link docs link outside -> xl "role" link <> None -> link_kind link k -> readable find_id k link outside) /\
   combinable find_id l).
Proof.
  intros Hu Hl. apply (links_as_read_iff docs l Hu) in Hl. subst l.
  assert (Hus : forall p, In p (sorted_links docs) -> usual (fst p) /\ x_tag (fst p) <> None /\ forall x around, inside (fst p) (snd p) x around -> usual x).
  { intros [x around] Hp. apply in_sorted_links, in_all_links in Hp. destruct (Hu _ _ Hp) as [A B]. destruct Hp as (_ & (local & E) & _). split; [exact A|]. split; [cbn; congruence|exact B]. }
  assert (Hloop := links_loop_iff edge_order root_order Horders (sorted_links docs) [] (LState es [] [] 0) Hus).
  assert (Hin : (forall link outside k, In (link, outside) (sorted_links docs) -> xl "role" link <> None -> link_kind link k -> readable find_id k link outside) <->
    (forall link outside k, extended_link docs link outside -> xl "role" link <> None -> link_kind link k -> readable find_id k link outside)).
  { split; intros H link outside k Hx; apply H; [apply in_sorted_links, in_all_links, Hx|apply in_all_links, in_sorted_links, Hx]. }
  rewrite Hin in Hloop. clear Hin.
  assert (Hcomb : forall d st, links_loop element_str number find_id edge_order root_order (sorted_links docs) [] (LState es [] [] 0) = Ok (d, st) ->
    ((exists f r, combine_roles f shuffle d (ls_heap st) = Ok r) <-> combinable find_id (sorted_links docs))).
  { intros d st H. destruct (links_loop_runs element_str number find_id edge_order root_order Horders (sorted_links docs) [] (LState es [] [] 0) d st) as (rs & K & O & B & E & N & G).
    - intros p Hp. apply (Hus p Hp).
    - exact H.
    - constructor.
    - cbn in B, E. rewrite E. rewrite (combine_roles_iff element_str number find_id rs B O d N G shuffle Hshuffle). pose proof (keys_pairs rs (sorted_links docs) K) as Kp.
      assert (Hr : forall k R r, is_physical k = false -> In r (runs_for rs k R) -> In r rs /\ is_physical (r_kind r) = false /\ usual (r_link r) /\ (forall x around, inside (r_link r) (r_out r) x around -> usual x)).
      { intros k R r Hk Hr. apply (in_runs_for rs k R r Hk) in Hr as (A & _ & <-). split; [exact A|]. split; [exact Hk|].
        apply (in_map r_key) in A. rewrite K in A. apply in_flat_map in A as ([link' out'] & Hp & A). unfold expected in A. cbn [fst snd] in A.
        destruct (xl "role" link'); [|destruct A]. destruct (x_tag link'); [|destruct A]. apply in_map_iff in A as (k' & E' & _). unfold r_key in E'. injection E' as -> -> _ _.
        destruct (Hus _ Hp) as (U1 & _ & U2). auto. }
      split.
      + intros Hall pre link outside mid link' outside' post role k El R1 R2 Hk K1 K2 Hb. apply joins_logical in Hk.
        destruct (proj2 (Kp k role Hk) _ _ _ _ _ _ _ El R1 R2 K1 K2) as (pre' & r & mid' & r' & post' & Er & <- & <- & <- & <-).
        assert (I1 : In r (runs_for rs k role)) by (rewrite Er; apply in_elt). assert (I2 : In r' (runs_for rs k role)) by (rewrite Er; apply in_or_app; right; right; apply in_elt).
        destruct (Hr k role r Hk I1) as (A1 & A2 & A3 & A4). destruct (Hr k role r' Hk I2) as (B1 & B2 & B3 & B4).
        apply (run_ends r' (O r' B1) B3 B4 B2), (Hall k role _ _ _ _ _ Hk Er), (run_begins r (O r A1) A3 A4 A2), Hb.
      + intros Hall k R pre r mid r' post Hk Er Hb.
        assert (I1 : In r (runs_for rs k R)) by (rewrite Er; apply in_elt). assert (I2 : In r' (runs_for rs k R)) by (rewrite Er; apply in_or_app; right; right; apply in_elt).
        destruct (Hr k R r Hk I1) as (A1 & A2 & A3 & A4). destruct (Hr k R r' Hk I2) as (B1 & B2 & B3 & B4).
        destruct (proj1 (Kp k R Hk) _ _ _ _ _ Er) as (pre' & mid' & post' & El & R1 & R2 & K1 & K2).
        apply (run_ends r' (O r' B1) B3 B4 B2). apply joins_logical in Hk. eapply Hall; eauto. apply (run_begins r (O r A1) A3 A4 A2), Hb. }
  split.
  - intros (fuel & res & H). unfold parse_networks in H. apply bind_ok in H as ([d st] & H1 & H). cbn [fst snd] in H. apply bind_ok in H as (c & H2 & _).
    split; [apply Hloop; eauto|]. apply (Hcomb d st H1). eauto.
  - intros [H1 H2]. apply Hloop in H1 as [[d st] H1]. destruct (proj2 (Hcomb d st H1) H2) as (f & c & H3). exists f. unfold parse_networks. rewrite H1. cbn [bind fst snd]. rewrite H3. cbn [bind]. eauto.
Qed.
End Link.
