(** C42 (errors are kept in order), C43 (every error can be recorded), C51 (error codes are
    distinct). *)
From Verif Require Import Base ErrBase ErrTable ErrModel ErrSpec.

(** * Lemmas *)

Lemma filter_picked {A} (P : A -> Prop) f (l : list A) :
  (forall x, reflect (P x) (f x)) -> Picked P l (filter f l).
Proof.
  intros Hf; induction l as [|x l IH]; cbn; [constructor|].
  destruct (Hf x); constructor; assumption.
Qed.

Lemma severity_eqb_spec a b : reflect (a = b) (severity_eqb a b).
Proof. destruct a, b; constructor; congruence. Qed.

Lemma area_eqb_spec a b : reflect (a = b) (area_eqb a b).
Proof. destruct a, b; constructor; congruence. Qed.

Lemma Picked_unique {A} (P : A -> Prop) (l r r' : list A) : Picked P l r -> Picked P l r' -> r = r'.
Proof.
  intros H; revert r'; induction H; intros r' H'; inversion H'; subst;
    try contradiction; f_equal; auto.
Qed.

Lemma ident_char_spec c :
  ident_char c = true <-> (97 <= c <= 122 \/ 65 <= c <= 90 \/ c = 95)%N.
Proof. unfold ident_char. rewrite !orb_true_iff, !andb_true_iff, !N.leb_le, N.eqb_eq. lia. Qed.

Lemma bind_ok {A B} (r : res A) (f : A -> res B) b :
  bind r f = Ok b -> exists a, r = Ok a /\ f a = Ok b.
Proof. destruct r; cbn; [eauto|discriminate]. Qed.

Lemma format_sound kw : forall t field m, format kw field t = Ok m ->
  match field with
  | None => Renders kw t m
  | Some n => exists n' v t' m', t = n' ++ u "}" ++ t' /\ m = v ++ m' /\ n ++ n' <> [] /\
      Forall (fun c => (97 <= c <= 122 \/ 65 <= c <= 90 \/ c = 95)%N) (n ++ n') /\
      In (n ++ n', v) kw /\ Renders kw t' m'
  end.
Proof.
  intros t; remember (length t) as k eqn:Hk.
  assert (Hle : length t <= k) by lia; clear Hk; revert t Hle.
  induction k as [|k IH]; intros t Hle field m H.
  - destruct t; [|cbn in Hle; lia].
    destruct field; cbn in H; [discriminate|]. injection H as <-. constructor.
  - destruct t as [|c t1].
    + destruct field; cbn in H; [discriminate|]. injection H as <-. constructor.
    + cbn in Hle. destruct field as [n|]; cbn [format] in H.
      * destruct (c =? ch "{")%N; [discriminate|].
        destruct (N.eqb_spec c (ch "}")) as [-> | Hc].
        -- destruct (ident n) eqn:Hi; [|discriminate].
           destruct (dict_get str_eqb kw n) as [v|] eqn:Hg; [|discriminate].
           apply bind_ok in H as (r & Hr & [= <-]).
           apply IH in Hr; [|lia].
           exists [], v, t1, r. rewrite app_nil_r.
           repeat split; try assumption.
           ++ intros ->; discriminate.
           ++ unfold ident in Hi. destruct n; [discriminate|].
              rewrite Forall_forall. rewrite forallb_forall in Hi.
              intros x Hx; apply ident_char_spec, Hi, Hx.
           ++ eapply (dict_get_in str_eqb str_eqb_spec); exact Hg.
        -- destruct (mem_char c (u ":![")); [discriminate|].
           apply IH in H; [|lia].
           destruct H as (n' & v & t' & m' & -> & -> & H1 & H2 & H3 & H4).
           exists (c :: n'), v, t', m'.
           rewrite <- app_assoc in H1, H2, H3. repeat split; assumption.
      * destruct (N.eqb_spec c (ch "{")) as [-> | Hc].
        -- destruct t1 as [|d t2]; [discriminate|].
           destruct (N.eqb_spec d (ch "{")) as [-> | Hd].
           ++ apply bind_ok in H as (r & Hr & [= <-]).
              apply IH in Hr; [|cbn in Hle; lia].
              apply (Renders_open kw t2 r Hr).
           ++ apply IH in H; [|lia].
              destruct H as (n' & v & t' & m' & E & -> & H1 & H2 & H3 & H4).
              rewrite E. apply (Renders_field kw n' v t' m'); assumption.
        -- destruct (N.eqb_spec c (ch "}")) as [-> | Hc'].
           ++ destruct t1 as [|d t2]; [discriminate|].
              destruct (N.eqb_spec d (ch "}")) as [-> | Hd]; [|discriminate].
              apply bind_ok in H as (r & Hr & [= <-]).
              apply IH in Hr; [|cbn in Hle; lia].
              apply (Renders_close kw t2 r Hr).
           ++ apply bind_ok in H as (r & Hr & [= <-]).
              apply IH in Hr; [|lia]. constructor; assumption.
Qed.

(** Whether a message can be formatted depends only on the names given. *)
Lemma format_names kw kw' : map fst kw = map fst kw' ->
  forall t field, is_ok (format kw field t) = is_ok (format kw' field t) /\
    (forall e, format kw field t = Raise e <-> format kw' field t = Raise e).
Proof.
  intros Hkw.
  assert (Hg : forall n, (dict_get str_eqb kw n = None <-> dict_get str_eqb kw' n = None)).
  { intros n. revert kw' Hkw. induction kw as [|[a b] kw IH]; intros [|[a' b'] kw'] H;
      cbn in H; try discriminate; [tauto|].
    injection H as -> H. cbn. destruct (str_eqb a' n); [split; discriminate|].
    apply IH, H. }
  intros t; remember (length t) as k eqn:Hk.
  assert (Hle : length t <= k) by lia; clear Hk; revert t Hle.
  induction k as [|k IH]; intros t Hle field.
  - destruct t; [|cbn in Hle; lia]. destruct field; cbn; split; tauto.
  - destruct t as [|c t1]; [destruct field; cbn; split; tauto|].
    cbn in Hle. destruct field as [n|]; cbn [format].
    + destruct (c =? ch "{")%N; [cbn; split; tauto|].
      destruct (c =? ch "}")%N.
      * destruct (ident n); [|cbn; split; tauto].
        specialize (Hg n).
        destruct (dict_get str_eqb kw n) as [v|], (dict_get str_eqb kw' n) as [v'|].
        -- destruct (IH t1 ltac:(lia) None) as [H1 H2].
           destruct (format kw None t1) eqn:E1, (format kw' None t1) eqn:E2; cbn in *;
             try discriminate; split; try reflexivity; intros e'; specialize (H2 e');
             split; intros; try discriminate; tauto.
        -- exfalso; destruct Hg as [_ Hg]; discriminate Hg; reflexivity.
        -- exfalso; destruct Hg as [Hg _]; discriminate Hg; reflexivity.
        -- cbn; split; tauto.
      * destruct (mem_char c (u ":![")); [cbn; split; tauto|]. apply IH; lia.
    + assert (Hb : forall t' c', length t' <= k ->
        is_ok (do! r <- format kw None t'; Ok (c' :: r)) =
        is_ok (do! r <- format kw' None t'; Ok (c' :: r)) /\
        (forall e, (do! r <- format kw None t'; Ok (c' :: r)) = Raise e <->
                   (do! r <- format kw' None t'; Ok (c' :: r)) = Raise e)).
      { intros t' c' Hl. destruct (IH t' Hl None) as [H1 H2].
        destruct (format kw None t') eqn:E1, (format kw' None t') eqn:E2; cbn in *;
             try discriminate; split; try reflexivity; intros e'; specialize (H2 e');
             split; intros; try discriminate; tauto. }
      destruct (c =? ch "{")%N.
      * destruct t1 as [|d t2]; [cbn; split; tauto|]. cbn in Hle.
        destruct (d =? ch "{")%N; [apply Hb; lia|apply IH; cbn; lia].
      * destruct (c =? ch "}")%N.
        -- destruct t1 as [|d t2]; [cbn; split; tauto|]. cbn in Hle.
           destruct (d =? ch "}")%N; [apply Hb; lia|cbn; split; tauto].
        -- apply Hb; lia.
Qed.

Lemma registry_entry_in code en :
  dict_get String.eqb error_factory_registry code = Some en -> In (code, en) registry.
Proof.
  intros Hg.
  apply (dict_get_in String.eqb String.eqb_spec) in Hg.
  unfold error_factory_registry in Hg.
  assert (Hf : forall l d, (In (code, en) (fold_left
      (fun d kv => dict_set String.eqb d (fst kv) (snd kv)) l d)) ->
      In (code, en) d \/ In (code, en) l).
  { induction l as [|[k v] l IH]; intros d H; [left; exact H|]. cbn in H.
    apply IH in H as [H|H]; [|right; right; exact H].
    clear IH. induction d as [|[k' v'] d IHd]; cbn in H.
    - destruct H as [H|[]]. right; left; exact H.
    - destruct (String.eqb_spec k' k) as [-> | Hne]; cbn in H.
      + destruct H as [H|H]; [right; left|left; right; exact H].
        congruence.
      + destruct H as [H|H]; [left; left; exact H|].
        destruct (IHd H) as [Hd|Hd]; [left; right; exact Hd|right; exact Hd]. }
  apply Hf in Hg as [[]|Hg]. exact Hg.
Qed.

Local Opaque error_factory_registry.

(** * C42 *)

(** The error an operation records, if any. *)
Definition recorded {E} (o : op E) : option (error E) :=
  match o with
  | Insert code ctx kw => match create code ctx kw with Ok e => Some e | Raise _ => None end
  | InsertPremade e => Some e
  | UpsertIf c e => if c then Some e else None
  | Clear => None
  end.

Fixpoint all_recorded {E} (ops : list (op E)) : list (error E) :=
  match ops with
  | [] => []
  | o :: ops' => match recorded o with Some e => e :: all_recorded ops' | None => all_recorded ops' end
  end.

(** After any sequence of recordings the list of errors is what was there before followed by the
    recorded errors in order. *)
Theorem C42_in_order {E} (st : repo E) ops :
  ~ In Clear ops -> get_all_errors (run st ops) = get_all_errors st ++ all_recorded ops.
Proof.
  revert st; induction ops as [|o ops IH]; intros st Hn; [symmetry; apply app_nil_r|].
  assert (Hn' : ~ In Clear ops) by (intros H; apply Hn; right; exact H).
  change (run st (o :: ops)) with (run (step st o) ops). rewrite IH by exact Hn'.
  unfold get_all_errors, get_all. cbn [all_recorded].
  destruct o as [code ctx kw|e|c e|]; cbn [step recorded].
  - unfold insert. destruct (create code ctx kw); cbn; [|reflexivity].
    unfold insert_premade. rewrite <- app_assoc. reflexivity.
  - unfold insert_premade. rewrite <- app_assoc. reflexivity.
  - destruct c; cbn [upsert_if]; [|reflexivity]. unfold insert_premade. rewrite <- app_assoc. reflexivity.
  - exfalso; apply Hn; left; reflexivity.
Qed.

(** [clear] starts again from the empty list. *)
Theorem C42_clear {E} (st : repo E) before after :
  ~ In Clear after ->
  get_all_errors (run st (before ++ Clear :: after)) = all_recorded after.
Proof.
  intros Hn. unfold run. rewrite fold_left_app. cbn [fold_left step].
  change (get_all_errors (run [] after) = all_recorded after). rewrite C42_in_order by exact Hn.
  reflexivity.
Qed.

(** A recorded error carries the severity, area and numeric code of its entry, the message
    with the given values, and the element. *)
Theorem C42_recorded_content {E} (st st' : repo E) code ctx kw :
  insert st code ctx kw = Ok st' ->
  exists en m, In (code, en) registry /\ Renders kw (u (en_message en)) m /\
    get_all_errors st' = get_all_errors st ++
      [Error (en_severity en) (en_area en) (u (en_code en)) m (en_xbrl en) ctx].
Proof.
  unfold insert, create. intros H. apply bind_ok in H as (e & He & [= <-]).
  destruct (dict_get String.eqb error_factory_registry code) as [en|] eqn:Hg; [|discriminate].
  apply bind_ok in He as (m & Hm & [= <-]).
  exists en, m. split; [|split; [|reflexivity]].
  - apply registry_entry_in, Hg.
  - unfold update_message in Hm.
    destruct (format kw None (u (en_message en))) as [m'|e] eqn:Hfm.
    + injection Hm as <-. apply (format_sound _ _ _ _ Hfm).
    + destruct e; discriminate.
Qed.

(** The getters return exactly the matching errors in the order of recording. *)
Theorem C42_filters {E} (st : repo E) :
  (forall a, Picked (fun e => er_area e = a) (get_all_errors st) (get_errors_by_area st a)) /\
  (forall s, Picked (fun e => er_severity e = s) (get_all_errors st) (get_errors_by_severity st s)) /\
  Picked (fun e => er_severity e = ERROR) (get_all_errors st) (get_errors st) /\
  Picked (fun e => er_severity e = WARNING) (get_all_errors st) (get_warnings st) /\
  Picked (fun e => er_severity e = INFO) (get_all_errors st) (get_infos st) /\
  (has_any_errors st = true <-> exists e, In e (get_all_errors st)).
Proof.
  assert (Hs : forall s, Picked (fun e => er_severity e = s) (get_all_errors st)
                 (get_errors_by_severity st s)).
  { intros s. apply filter_picked. intros e. apply severity_eqb_spec. }
  repeat split; try apply Hs.
  - intros a. apply filter_picked. intros e. apply area_eqb_spec.
  - unfold has_any_errors, get_all_errors, get_all. destruct st as [|e st]; [discriminate|].
    exists e; left; reflexivity.
  - intros (e & He). unfold has_any_errors, get_all_errors, get_all in *.
    destruct st; [contradiction|reflexivity].
Qed.

(** Errors, warnings and infos together are all recorded errors, each once. *)
Theorem C42_partition {E} (st : repo E) :
  Permutation (get_all_errors st) (get_errors st ++ get_warnings st ++ get_infos st).
Proof.
  unfold get_all_errors, get_errors, get_warnings, get_infos, get_errors_by_severity,
    get_by_severity, get_all.
  induction st as [|e st IH]; [constructor|]. cbn.
  destruct (er_severity e); cbn.
  - constructor; exact IH.
  - apply Permutation_cons_app, IH.
  - rewrite app_assoc. apply Permutation_cons_app. rewrite <- app_assoc. exact IH.
Qed.

Example C42_example :
  let ops := [Insert "MISSING_CONTEXT_PERIOD" (Some 1) [];
              Insert "XML_INVALID_FACT_UNIT_ID" (Some 2) [(u "unit_id", u "usd")];
              Insert "MISSING_FACT_VALUE" (Some 3) [(u "concept", u "Cash")];
              Insert "IXBRL_INVALID_HEADER_CHILD" (Some 4) [(u "child_tag", u "p")]]%string in
  map (fun e => (error_str e, er_context e)) (get_all_errors (run [] ops)) =
    [(u "E-ING-000: Context is missing a period child element", Some 1);
     (u "W-ING-019: Fact has no value but the concept Cash is not nillable", Some 3);
     (u "W-INI-101: The ix:header element must have one of the following children: ix:hidden, ix:resources, ix:references. Found p.", Some 4)]
  /\ length (get_errors (run [] ops)) = 1 /\ length (get_warnings (run [] ops)) = 2.
Proof. vm_compute. repeat split. Qed.

(** * C43 *)

Definition site_names (s : site) : list str := map u (s_kwargs s).

(** A call of [insert] with arbitrary values for the keyword arguments written at the site. *)
Definition call {E} (s : site) (st : repo E) (ctx : option E) (vals : list str) : res (repo E) :=
  insert st (s_code s) ctx (combine (site_names s) vals).

Definition is_broken (s : site) : bool :=
  existsb (fun p => (String.eqb (fst p) (s_file s) && Nat.eqb (snd p) (s_line s))%bool) broken_sites.

Lemma is_broken_spec s : is_broken s = true <-> In (s_file s, s_line s) broken_sites.
Proof.
  unfold is_broken. rewrite existsb_exists. split.
  - intros ([f n] & Hin & H). apply andb_true_iff in H as [H1 H2].
    apply String.eqb_eq in H1. apply Nat.eqb_eq in H2. cbn in *. subst. exact Hin.
  - intros H. exists (s_file s, s_line s). split; [exact H|]. cbn.
    rewrite String.eqb_refl, Nat.eqb_refl. reflexivity.
Qed.

Definition empties (l : list str) : list str := map (fun _ => []) l.

Definition site_check (s : site) : bool :=
  match create (elem := nat) (s_code s) None (combine (site_names s) (empties (site_names s))) with
  | Ok _ => negb (is_broken s)
  | Raise ValueError => is_broken s
  | Raise _ => false
  end.

Lemma sites_checked : forallb site_check sites = true.
Proof. vm_compute. reflexivity. Qed.

Lemma combine_fst {A B} (a : list A) (b : list B) : length b = length a -> map fst (combine a b) = a.
Proof.
  revert b; induction a as [|x a IH]; intros [|y b] H; cbn in *; try discriminate; [reflexivity|].
  rewrite IH by lia. reflexivity.
Qed.

(** At every place of the sources that records an error, for all values passed: recording succeeds
    unless the place is one of [broken_sites]; at those it raises [ValueError]. *)
Theorem C43_sites {E} s (st : repo E) ctx vals :
  In s sites -> length vals = length (s_kwargs s) ->
  (~ In (s_file s, s_line s) broken_sites -> exists st', call s st ctx vals = Ok st') /\
  (In (s_file s, s_line s) broken_sites -> call s st ctx vals = Raise ValueError).
Proof.
  intros Hs Hl.
  assert (Hc : site_check s = true).
  { generalize sites_checked. rewrite forallb_forall. intros H; apply H, Hs. }
  rewrite <- is_broken_spec. unfold site_check, call, insert, create in *.
  set (en := dict_get String.eqb error_factory_registry (s_code s)) in *. clearbody en.
  set (b := is_broken s) in *. clearbody b.
  destruct en as [en|].
  2:{ split; intros H; [congruence|reflexivity]. }
  assert (Hk : map fst (combine (site_names s) vals) =
               map fst (combine (site_names s) (empties (site_names s)))).
  { rewrite !combine_fst; [reflexivity|apply (map_length (fun _ : str => [] : str))|].
    unfold site_names. rewrite map_length. exact Hl. }
  destruct (format_names _ _ Hk (u (en_message en)) None) as [H1 H2].
  unfold update_message in *.
  destruct (format (combine (site_names s) (empties (site_names s))) None
             (u (en_message en))) as [m|e] eqn:E1;
  destruct (format (combine (site_names s) vals) None (u (en_message en))) as [m'|e'] eqn:E2;
    cbn in H1; try discriminate; cbn in *.
  - split; intros H; [eauto|]. subst b; discriminate.
  - assert (e = e').
    { destruct (H2 e') as [H3 _]. specialize (H3 eq_refl). congruence. }
    subst e'. destruct e; cbn in *; try discriminate; split; intros H; try congruence; reflexivity.
Qed.

(** Every code used at a site exists in the enum; every site is a distinct place. *)
Theorem C43_codes_exist s : In s sites -> In (s_code s) error_codes.
Proof.
  intros Hs.
  assert (Hc : forallb (fun s => existsb (String.eqb (s_code s)) error_codes) sites = true)
    by (vm_compute; reflexivity).
  rewrite forallb_forall in Hc. specialize (Hc s Hs). apply existsb_exists in Hc as (x & Hx & E).
  apply String.eqb_eq in E. subst. exact Hx.
Qed.

(** The full property fails: some codes used by the parsers cannot be recorded. *)
Theorem C43_all_recordable_refuted :
  exists s, In s sites /\
    forall E (st : repo E) ctx vals, length vals = length (s_kwargs s) ->
      call s st ctx vals = Raise ValueError.
Proof.
  exists (Site "brel/parsers/XML/xml_facts_parser.py" 166 "XML_INVALID_FACT_CONTEXT_ID" ["context_id"%string]).
  assert (H : In (Site "brel/parsers/XML/xml_facts_parser.py" 166 "XML_INVALID_FACT_CONTEXT_ID"
                    ["context_id"%string]) sites) by (apply (nth_error_In sites 119); vm_compute; reflexivity).
  split; [exact H|]. intros E st ctx vals Hl. apply (C43_sites _ st ctx vals H Hl).
  unfold broken_sites; cbn [In s_file s_line]; repeat (first [left; reflexivity | right]).
Qed.

(** The template stays within the modelled part of [str.format]. *)
Fixpoint modelled (field : option str) (t : str) : bool :=
  match field with
  | None =>
      match t with
      | [] => true
      | c :: t1 =>
          if (c =? ch "{")%N then
            match t1 with
            | [] => true
            | d :: t2 => if (d =? ch "{")%N then modelled None t2 else modelled (Some []) t1
            end
          else if (c =? ch "}")%N then match t1 with [] => true | d :: t2 => modelled None t2 end
          else modelled None t1
      end
  | Some n =>
      match t with
      | [] => true
      | c :: t1 =>
          if (c =? ch "{")%N then true
          else if (c =? ch "}")%N then ident n && modelled None t1
          else negb (mem_char c (u ":![")) && modelled (Some (n ++ [c])) t1
      end
  end.

Lemma modelled_format kw t : forall field, modelled field t = true ->
  format kw field t <> Raise NotImplementedError.
Proof.
  remember (length t) as k eqn:Hk.
  assert (Hle : length t <= k) by lia; clear Hk; revert t Hle.
  induction k as [|k IH]; intros t Hle field H.
  - destruct t; [|cbn in Hle; lia]. destruct field; cbn; discriminate.
  - destruct t as [|c t1]; [destruct field; cbn; discriminate|]. cbn in Hle.
    assert (Hb : forall t' w, length t' <= k -> modelled None t' = true ->
              (do! r <- format kw None t'; Ok (w ++ r)) <> Raise NotImplementedError).
    { intros t' w Hl Hm. specialize (IH t' Hl None Hm).
      destruct (format kw None t'); cbn; congruence. }
    destruct field as [n|]; cbn [format modelled] in *.
    + destruct (c =? ch "{")%N; [discriminate|].
      destruct (c =? ch "}")%N.
      * apply andb_true_iff in H as [-> H].
        destruct (dict_get str_eqb kw n); [|discriminate]. apply Hb; [lia|exact H].
      * apply andb_true_iff in H as [H1 H].
        apply negb_true_iff in H1; rewrite H1. apply IH; [lia|exact H].
    + destruct (c =? ch "{")%N.
      * destruct t1 as [|d t2]; [discriminate|]. cbn in Hle.
        destruct (d =? ch "{")%N; [apply (Hb t2 [ch "{"]); [lia|exact H]|].
        apply IH; [cbn; lia|exact H].
      * destruct (c =? ch "}")%N.
        -- destruct t1 as [|d t2]; [discriminate|]. cbn in Hle.
           destruct (d =? ch "}")%N; [|discriminate]. apply (Hb t2 [ch "}"]); [lia|exact H].
        -- apply (Hb t1 [c]); [lia|exact H].
Qed.

Lemma registry_modelled :
  forallb (fun ke => modelled None (u (en_message (snd ke)))) error_factory_registry = true.
Proof. vm_compute. reflexivity. Qed.

(** No registered message uses a feature of [str.format] outside the model. *)
Theorem C43_templates_modelled code en kw :
  dict_get String.eqb error_factory_registry code = Some en ->
  format kw None (u (en_message en)) <> Raise NotImplementedError.
Proof.
  intros H. apply (dict_get_in String.eqb String.eqb_spec) in H.
  pose proof registry_modelled as Hm. rewrite forallb_forall in Hm.
  apply modelled_format. exact (Hm _ H).
Qed.

(** The messages for a missing start date and a missing end date are exchanged. *)
Theorem C43_period_messages_refuted {E} (st : repo E) ctx :
  map er_message (run st [Insert "DURATION_PERIOD_MISSING_START_DATE" ctx []]) =
    map er_message st ++ [u "End date is missing from the duration period."] /\
  map er_message (run st [Insert "DURATION_PERIOD_MISSING_END_DATE" ctx []]) =
    map er_message st ++ [u "Start date is missing from the duration period."].
Proof.
  assert (H : forall c m, option_map en_message (dict_get String.eqb error_factory_registry c) = Some m ->
    format [] None (u m) = Ok (u m) ->
    map er_message (run st [Insert c ctx []]) = map er_message st ++ [u m]).
  { intros c m Hc Hm. unfold run. cbn [fold_left step]. unfold insert, create.
    destruct (dict_get String.eqb error_factory_registry c) as [en|]; [|discriminate].
    injection Hc as <-. unfold update_message. rewrite Hm. cbn [bind].
    unfold insert_premade. rewrite map_app. reflexivity. }
  split; apply H; vm_compute; reflexivity.
Qed.

(** * C51 *)

(** The key printed for an error identifies its code. *)
Definition entry_key (en : entry) : str :=
  get_full_error_code (Error (elem := nat) (en_severity en) (en_area en) (u (en_code en)) [] (en_xbrl en) None).

Definition distinct_keys (l : list (string * entry)) : bool :=
  forallb (fun a => forallb (fun b =>
    String.eqb (fst a) (fst b) || negb (str_eqb (entry_key (snd a)) (entry_key (snd b)))) l) l.

Lemma registry_distinct : distinct_keys error_factory_registry = true.
Proof. vm_compute. reflexivity. Qed.

Theorem C51_full_code_identifies {E} code code' ctx ctx' kw kw' (e e' : error E) :
  create code ctx kw = Ok e -> create code' ctx' kw' = Ok e' ->
  get_full_error_code e = get_full_error_code e' -> code = code'.
Proof.
  unfold create. intros H H' Hk.
  destruct (dict_get String.eqb error_factory_registry code) as [en|] eqn:G; [|discriminate].
  destruct (dict_get String.eqb error_factory_registry code') as [en'|] eqn:G'; [|discriminate].
  apply bind_ok in H as (m & _ & [= <-]). apply bind_ok in H' as (m' & _ & [= <-]).
  change (entry_key en = entry_key en') in Hk.
  apply (dict_get_in String.eqb String.eqb_spec) in G.
  apply (dict_get_in String.eqb String.eqb_spec) in G'.
  pose proof registry_distinct as Hd. unfold distinct_keys in Hd.
  rewrite forallb_forall in Hd. specialize (Hd _ G). cbn beta in Hd.
  rewrite forallb_forall in Hd. specialize (Hd _ G'). cbn [fst snd] in Hd.
  apply orb_true_iff in Hd as [Hd|Hd]; [apply String.eqb_eq, Hd|].
  rewrite Hk, str_eqb_refl in Hd. discriminate.
Qed.

Example C51_example :
  (do! e <- create (elem := nat) "INVALID_CATALOG_ROOT_NODE" None []; Ok (get_full_error_code e)) =
  Ok (u "E-TXP-000 [{http://xbrl.org/2016/taxonomy-package/errors}invalidCatalogFile]").
Proof. vm_compute. reflexivity. Qed.

Print Assumptions C42_in_order.
Print Assumptions C42_clear.
Print Assumptions C42_recorded_content.
Print Assumptions C42_filters.
Print Assumptions C42_partition.
Print Assumptions C43_sites.
Print Assumptions C43_codes_exist.
Print Assumptions C43_all_recordable_refuted.
Print Assumptions C43_templates_modelled.
Print Assumptions C43_period_messages_refuted.
Print Assumptions C51_full_code_identifies.
