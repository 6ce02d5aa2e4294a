(** Sessions that fail do not spoil the cache (C112). *)
From Verif Require Import Base QNameModel ErrBase ErrModel CtxModel DtsModel DtsProofs OpenModel OpenFilingModel SessionModel SessionSpec SessionProofs.
From Verif Require CacheProps CacheSpec.
Local Open Scope nat_scope.

(** What an opening that succeeds leaves is what it is said to leave in C110. *)
Theorem C112_success lib so fs w parse_file fuel cached path f left :
  open_filing lib so fs w parse_file fuel cached path = Ok (f, left) -> files_left fs w parse_file fuel cached path = left.
Proof.
  unfold open_filing, open_path, create_parser, open_context, files_left. destruct (load_path fs fuel path) as [[|p l]|]; [discriminate| |discriminate]. cbn [bind].
  destruct (parse_catalog parse_file (p :: l)) as [[[paths r] es]|]; [|discriminate]. cbn [bind]. rewrite load_all_try_ok. unfold outcome.
  destruct (load_all_try w r fuel paths (Cache cached [])) as [[[]|e] s]; cbn [fst snd bind]; [|discriminate].
  destruct (forallb is_xml_file paths); [|destruct (forallb is_known_file paths); [|discriminate]]; cbn [bind];
    (destruct (parse_opened _ _ _ _ _ _); [|discriminate]; cbn [bind]; intros H; injection H as _ <-; reflexivity).
Qed.

(** However an opening ends, what was in the cache stays there as it was ... *)
Theorem C112_kept_partial {tree} fs (w : world tree) parse_file fuel cached path : names_kept w ->
  forall name text, dict_get str_eqb cached name = Some text -> dict_get str_eqb (files_left fs w parse_file fuel cached path) name = Some text.
Proof.
  intros Hn. unfold files_left. destruct (load_path fs fuel path) as [[|p l]|]; [auto| |auto].
  destruct (parse_catalog parse_file (p :: l)) as [[[paths r] es]|]; [|auto]. exact (load_grows w Hn r fuel paths (Cache cached [])).
Qed.

(** ... and everything else in it is the text of a document, as a whole, under the name of the document. *)
Lemma each_texts {tree} (T : str -> str -> Prop) (f : str -> cache tree -> res unit * cache tree) l s :
  (forall x s, (forall n t, dict_get str_eqb (files s) n = Some t -> T n t) -> forall n t, dict_get str_eqb (files (snd (f x s))) n = Some t -> T n t) ->
  (forall n t, dict_get str_eqb (files s) n = Some t -> T n t) -> forall n t, dict_get str_eqb (files (snd (each_try f l s))) n = Some t -> T n t.
Proof.
  intros H. revert s. induction l as [|x l IH]; intros s Hs; [exact Hs|]. cbn [each_try]. pose proof (H x s Hs) as Hx.
  destruct (f x s) as [[[]|e] s']; cbn [snd] in *; [exact (IH s' Hx)|exact Hx].
Qed.
Theorem C112_texts {tree} fs (w : world tree) parse_file fuel cached path name text :
  dict_get str_eqb (files_left fs w parse_file fuel cached path) name = Some text ->
  dict_get str_eqb cached name = Some text \/
  (exists v, name = uri_to_filename v /\ w_remote w v = Some text) \/ (exists p, name = uri_to_filename p /\ w_local w p = Some text).
Proof.
  set (T := fun name text => dict_get str_eqb cached name = Some text \/ (exists v, name = uri_to_filename v /\ w_remote w v = Some text) \/ (exists p, name = uri_to_filename p /\ w_local w p = Some text)).
  enough (G : forall n t, dict_get str_eqb (files_left fs w parse_file fuel cached path) n = Some t -> T n t) by apply G.
  assert (T0 : forall n t, dict_get str_eqb cached n = Some t -> T n t) by (intros n t E; left; exact E).
  unfold files_left. destruct (load_path fs fuel path) as [[|p l]|]; [exact T0| |exact T0].
  destruct (parse_catalog parse_file (p :: l)) as [[[paths r] es]|]; [|exact T0].
  assert (Hset : forall (s : cache tree) v t, (forall n t, dict_get str_eqb (files s) n = Some t -> T n t) -> T (uri_to_filename v) t ->
    forall n t', dict_get str_eqb (files (add_file s v t)) n = Some t' -> T n t').
  { intros s v t Hs Hv n t' E. unfold add_file in E. cbn [files] in E. destruct (str_eqb_spec n (uri_to_filename v)) as [->|Hne].
    - rewrite (dict_get_set_same _ str_eqb_spec) in E. injection E as <-. exact Hv.
    - rewrite (dict_get_set_other _ str_eqb_spec) in E by congruence. exact (Hs _ _ E). }
  apply each_texts; [|exact T0]. generalize (u "."). intros ref x. revert ref x.
  induction fuel as [|fuel IH]; intros ref x s Hs; [exact Hs|]. cbn [add_etree_try]. cbv zeta.
  destruct (has_etree s _); [exact Hs|]. destruct (get_parser _) as [k|e]; [|exact Hs].
  assert (Hf : forall n t, dict_get str_eqb (files (snd (fetch_try w s (is_http (resolve w r x ref) || is_http ref) (resolve w r x ref)))) n = Some t -> T n t).
  { unfold fetch_try. destruct (has_file s _); [exact Hs|]. destruct (_ || _).
    - destruct (w_remote w _) as [t|] eqn:E; [|exact Hs]. apply Hset; [exact Hs|]. right. left. eauto.
    - cbv zeta. destruct (w_local w _) as [t|] eqn:E; [|exact Hs]. apply Hset; [exact Hs|]. right. right. eauto. }
  destruct (fetch_try w s _ _) as [[t|e] s']; cbn [snd] in *; [|exact Hf]. destruct (w_parse w k t) as [tr|]; [|exact Hf].
  destruct (bind _ _) as [refs|e]; [|exact Hf]. apply each_texts; [intros y s0; apply IH|exact Hf].
Qed.

(** Opening again, when more can be fetched, does what it would have done if all of that could have been fetched
    the first time. *)
Theorem C112_retry_partial lib so fs w w' parse_file fuel cached path : more_available w w' -> names_kept w ->
  same_opening (open_filing lib so fs w' parse_file fuel (files_left fs w parse_file fuel cached path) path)
               (open_filing lib so fs w' parse_file fuel cached path).
Proof.
  intros [Hj Hp Hpa Ho Hr Hl] Hn. unfold open_filing, open_path, create_parser, open_context, files_left.
  destruct (load_path fs fuel path) as [[|p l]|]; [reflexivity| |reflexivity]. cbn [bind].
  destruct (parse_catalog parse_file (p :: l)) as [[[paths r] es]|]; [|reflexivity]. cbn [bind].
  assert (Hn' : names_kept w') by (intros v; rewrite <- Hp; apply Hn).
  rewrite !load_all_try_ok. set (first := load_all_try w r fuel paths (Cache cached [])). set (x := load_all_try w' r fuel paths (Cache cached [])).
  assert (A : agree (files (snd x)) x (load_all_try w' r fuel paths (Cache (files (snd first)) []))).
  { apply load_agree; [exact Hn'| |].
    - split; [apply within_refl|]. destruct (fst _); [exact I|apply within_refl].
    - split; [reflexivity|]. cbn [files]. split; [exact (load_grows w Hn r fuel paths (Cache cached []))|].
      destruct (load_shorter w w' Hj Hp Hpa Ho Hr Hl Hn r fuel paths (Cache cached [])) as [E|(e & _ & W)]; [|exact W].
      unfold first, x. rewrite E. apply within_refl. }
  destruct A as [E (Et & Wa & Wb)]. unfold outcome. set (y := load_all_try w' r fuel paths (Cache (files (snd first)) [])) in *.
  rewrite <- E. destruct (fst x) as [[]|e]; [|reflexivity]. cbn [bind].
  assert (K : forall name, dict_get str_eqb (files (snd y)) name = dict_get str_eqb (files (snd x)) name).
  { intros name. destruct (dict_get str_eqb (files (snd y)) name) as [t|] eqn:E1; [symmetry; exact (Wb _ _ E1)|].
    destruct (dict_get str_eqb (files (snd x)) name) as [t|] eqn:E2; [apply Wa in E2; congruence|reflexivity]. }
  destruct (forallb is_xml_file paths); [|destruct (forallb is_known_file paths); [|reflexivity]]; cbn [bind]; rewrite <- Et;
    (destruct (parse_opened _ _ _ _ _ _); [|reflexivity]; cbn [bind same_opening]; split; [reflexivity|exact K]).
Qed.

(** In particular opening twice in the same world ends in the same way. *)
Theorem C112_same_world_partial lib so fs w parse_file fuel cached path : names_kept w ->
  same_opening (open_filing lib so fs w parse_file fuel (files_left fs w parse_file fuel cached path) path)
               (open_filing lib so fs w parse_file fuel cached path).
Proof. apply C112_retry_partial. split; auto. Qed.

(** ** Local references with a query *)

(** The instance refers to "g/i.xml?x.xml". The text of g/i.xml is put into the cache in place of that of the
    instance, and opening fails. Opening again succeeds, with the other document. *)
Definition q_text : str := u "<xbrl xlink:href='g/i.xml?x.xml'/>".
Definition q_other : str := u "<xbrl/>".
Definition q_world : world InlineFilingModel.tree :=
  World (fun _ ref => ref) (fun p => hd [] (split_char (ch "?") p)) (fun _ => None) (dict_get str_eqb [(u "f/i.xml", q_text); (u "f/g/i.xml", q_other)])
    (fun _ text => Some (CacheProps.tree_of FilingProps.x_schema)) (fun l => l).
Theorem C112_query_refuted : exists left,
  CacheProps.k_open q_world [] = Raise OSError /\ files_left CacheProps.k_fs q_world (fun _ => None) 20 [] (u "f/i.xml") = left /\
  dict_get str_eqb left (u "i.xml") = Some q_other /\ w_local q_world (u "f/i.xml") = Some q_text /\
  exists f, CacheProps.k_open q_world left = Ok (f, left).
Proof. exists [(u "i.xml", q_other)]. split; [vm_compute; reflexivity|]. split; [vm_compute; reflexivity|]. split; [reflexivity|]. split; [reflexivity|]. eexists. vm_compute. reflexivity. Qed.

(** ** A concrete case *)

(** The schema is not there at first. *)
Definition early : world InlineFilingModel.tree :=
  World (fun _ ref => ref) (fun p => p) (fun _ => None) (dict_get str_eqb [(u "f/i.xml", CacheProps.k_instance)]) (fun _ text => dict_get str_eqb CacheProps.k_trees text) (fun l => l).
Example C112_example : more_available early CacheProps.k_world /\ names_kept early /\
  CacheProps.k_open early [] = Raise OSError /\ files_left CacheProps.k_fs early (fun _ => None) 20 [] (u "f/i.xml") = [(u "i.xml", CacheProps.k_instance)] /\
  CacheProps.k_seen (CacheProps.k_open CacheProps.k_world [(u "i.xml", CacheProps.k_instance)]) =
    Some ([u "7"], [u "Cash"; u "Assets"], [(u "i.xml", CacheProps.k_instance); (u "a.xsd", CacheProps.k_schema)]).
Proof.
  split; [|split; [intros v _; reflexivity|]].
  - unfold early, CacheProps.k_world, CacheProps.k_disk.
    split; cbn [w_urljoin w_path w_parse w_order w_remote w_local]; [reflexivity|reflexivity|reflexivity|reflexivity|intros v t H; discriminate H|]. cbn [dict_get]. intros p t. generalize (u "f/i.xml") (u "f/a.xsd") CacheProps.k_schema CacheProps.k_instance.
    intros a b c d. destruct (str_eqb a p); [intros H; exact H|intros H; discriminate H].
  - split; [vm_compute; reflexivity|]. split; vm_compute; reflexivity.
Qed.

Print Assumptions C112_success.
Print Assumptions C112_kept_partial.
Print Assumptions C112_texts.
Print Assumptions C112_retry_partial.
Print Assumptions C112_same_world_partial.
Print Assumptions C112_query_refuted.
