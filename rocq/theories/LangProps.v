(** C28-C31: languages, translations, main labels, output parameters; C52, C53: tables. *)
From Verif Require Import Base QNameModel QNameProofs CtxModel CtxSpec CtxProofs LangModel LangSpec LangProofs.
From Coq Require Import Lia.

(** * C28 *)

(** The languages of call, filing, library, system and report in this order, each once, and at the end
    the empty language if the default is allowed. *)
Theorem C28_languages filing library system available passed allow_report allow_system allow_default :
  exists all, preference filing library system available passed allow_system allow_report allow_default all /\
    without_repetition all
      (get_preferred_languages filing library system available passed allow_report allow_system allow_default).
Proof.
  eexists; split; [|apply deduplicate_spec].
  exists (function_languages passed), (languages_or_empty (p_langs filing)), (languages_or_empty (p_langs library)),
    (match system with Some (c :: s) => [c :: s] | _ => [] end),
    (match system with Some (c :: s) => if allow_system then [c :: s] else [] | _ => [] end), (if allow_report then available else []),
    (if allow_default then [[]] else []).
  split; [apply function_languages_passed|]. split; [apply languages_or_empty_set|].
  split; [apply languages_or_empty_set|].
  split; [destruct system as [[|c s]|]; constructor; discriminate|].
  split; [|split; [|split; [|reflexivity]]].
  - destruct system as [[|c s]|], allow_system; constructor.
  - destruct allow_report; constructor.
  - destruct allow_default; constructor.
Qed.

(** The order determines the list. *)
Theorem C28_preference_unique filing library system available passed r s d all all' :
  preference filing library system available passed s r d all ->
  preference filing library system available passed s r d all' -> all = all'.
Proof.
  assert (Hs : forall x l l', set_to x l -> set_to x l' -> l = l').
  { intros x l l' H H'. inversion H; subst; inversion H'; subst; congruence. }
  assert (Hp : forall x l l', passed_as x l -> passed_as x l' -> l = l').
  { intros x l l' H H'. inversion H; subst; inversion H'; subst; congruence. }
  assert (Hy : forall x l l', system_languages x l -> system_languages x l' -> l = l').
  { intros x l l' H H'. inversion H; subst; inversion H'; subst; congruence. }
  assert (Hi : forall b x l l', if_allowed b x l -> if_allowed b x l' -> l = l').
  { intros b x l l' H H'. inversion H; subst; inversion H'; subst; congruence. }
  intros (a1 & b1 & c1 & s1 & t1 & r1 & d1 & A1 & B1 & C1 & S1 & T1 & R1 & D1 & ->)
         (a2 & b2 & c2 & s2 & t2 & r2 & d2 & A2 & B2 & C2 & S2 & T2 & R2 & D2 & ->).
  rewrite (Hp _ _ _ A1 A2), (Hs _ _ _ B1 B2), (Hs _ _ _ C1 C2), (Hi _ _ _ _ R1 R2), (Hi _ _ _ _ D1 D2).
  rewrite (Hy _ _ _ S1 S2) in T1. rewrite (Hi _ _ _ _ T1 T2). reflexivity.
Qed.

Example C28_sample :
  get_preferred_languages (Params (Some (LStr (u "de"))) (fun _ => None)) initial_library
    (Some (u "en_US")) [u "fr"; u "en"; u "de"] (Some (LList [u "en"; u "fr"])) true true true
  = [u "en"; u "fr"; u "de"; u "en_US"; []].
Proof. reflexivity. Qed.

Print Assumptions C28_languages.
Print Assumptions C28_preference_unique.

(** * C29 *)

(** The text of the first language that gives one. *)
Theorem C29_translation_partial lower m t q languages :
  (forall s, lower (lower s) = lower s) -> NoDup (map fst t) ->
  (forall s, get_first lower m t q languages = Ok s <-> first_answer (answers lower m t q) languages s) /\
  (forall e, get_first lower m t q languages = Raise e ->
     e = KeyError /\ forall l s, In l languages -> ~ answers lower m t q l s).
Proof. intros Hl Ht. split; [intros s; apply get_first_spec; assumption|intros e; apply get_first_exn; assumption]. Qed.

Theorem C29_labels lower m labels languages default :
  (forall s, get_from_labels lower m labels languages default = Ok s <->
     first_answer (label_answers lower m labels default) languages s) /\
  (forall e, get_from_labels lower m labels languages default = Raise e ->
     e = ValueError /\ forall l s, In l languages -> ~ label_answers lower m labels default l s).
Proof. split; [intros s; apply label_for_spec|intros e; apply label_for_exn]. Qed.

(** With the empty language among them there is always a text. *)
Theorem C29_default lower m t q languages labels default :
  In [] languages ->
  (exists s, get_first lower m t q languages = Ok s) /\
  (exists s, get_from_labels lower m labels languages default = Ok s).
Proof.
  intros H. unfold get_from_labels. induction languages as [|l rest IH]; [destruct H|]. cbn [get_first label_for].
  destruct H as [->|H].
  - cbn. split; eexists; reflexivity.
  - destruct (IH H) as [H1 H2]. split.
    + destruct (get_single lower m t q l); [eexists; reflexivity|exact H1].
    + destruct (get_label_with_language _ _ _ _ _); [eexists; reflexivity|exact H2].
Qed.

(** The loaded texts are those of the last lines for a key and a language. *)
Theorem C29_loaded t file t' :
  load_from_csv true t file = Ok t' ->
  NoDup (map fst t') /\
  forall q key text, (exists d, In (q, d) t' /\ In (key, text) d) <->
    exists line, last_with (line_for q key) (tl file) line /\ text = line_text line.
Proof.
  intros H. destruct (load_lines_spec _ _ _ empty_table_ok H) as [[Hk _] Hall]. split; [exact Hk|].
  intros q key text. etransitivity; [apply Hall|]. split.
  - intros [H'|[_ (d & [] & _)]]. exact H'.
  - intros H'. left. exact H'.
Qed.

Definition ascii_lower (s : str) : str := map (fun c => if (65 <=? c)%N && (c <=? 90)%N then (c + 32)%N else c) s.
Lemma ascii_lower_lower s : ascii_lower (ascii_lower s) = ascii_lower s.
Proof.
  unfold ascii_lower. rewrite map_map. apply map_ext. intros c.
  destruct ((65 <=? c)%N && (c <=? 90)%N) eqn:E; [|rewrite E; reflexivity].
  apply andb_prop in E as [E1 E2]. apply N.leb_le in E1, E2.
  destruct ((65 <=? c + 32)%N && (c + 32 <=? 90)%N) eqn:E'; [|reflexivity].
  apply andb_prop in E' as [_ E']. apply N.leb_le in E'. lia.
Qed.

Definition s_file : list (list str) :=
  [[u "namespace"; u "localname"; u "language"; u "locale"; u "value"];
   [base ++ u "literal"; u "value"; u "en"; u "US"; u "Value"];
   [base ++ u "literal"; u "value"; u "de"; u "DE"; u "Wert"]].
Definition s_table : translations :=
  match load_from_csv true [] s_file with Ok t => t | Raise _ => [] end.

Example C29_sample :
  load_from_csv true [] s_file = Ok s_table /\
  get_text ascii_lower true s_table (u "literal:value") [u "fr"; u "DE-de"; u "en-US"] = Ok (u "Wert") /\
  get_text ascii_lower false s_table (u "literal:value") [u "fr"; u "en"] = Ok (u "Value") /\
  get_text ascii_lower true s_table (u "literal:other") [u "fr"; u "en"] = Ok (u "other").
Proof. repeat split; vm_compute; reflexivity. Qed.

(** A key with texts, but none in these languages: an exception, not the key. *)
Theorem C29_missing_refuted :
  get_text ascii_lower true s_table (u "literal:value") [u "fr"] = Raise KeyError.
Proof. vm_compute. reflexivity. Qed.
(** A plain language does not get the text of a region while locales must match. *)
Theorem C29_region_refuted :
  get_text ascii_lower true s_table (u "literal:value") [u "en"] = Raise KeyError.
Proof. vm_compute. reflexivity. Qed.
(** The system language is written with an underscore and matches no text, whatever [match_locale]. *)
Theorem C29_system_refuted m :
  get_preferred_languages no_params initial_library (Some (u "en_US")) [] None false true false = [u "en_US"] /\
  get_text ascii_lower m s_table (u "literal:value") [u "en_US"] = Raise KeyError.
Proof. split; [reflexivity|]. destruct m; vm_compute; reflexivity. Qed.

Print Assumptions C29_translation_partial.
Print Assumptions C29_labels.
Print Assumptions C29_default.
Print Assumptions C29_loaded.
Print Assumptions C29_missing_refuted.
Print Assumptions C29_region_refuted.
Print Assumptions C29_system_refuted.

(** * C30 *)

Theorem C30_main_label labels :
  match labels with
  | [] => l_text (select_main_label labels) = u "NO_LABEL"
  | _ => main_label labels (select_main_label labels) /\ In (select_main_label labels) labels
  end.
Proof.
  destruct labels as [|l0 rest]; [reflexivity|]. rewrite select_main_label_by.
  destruct (select_by_spec english (l0 :: rest) l0 rest eq_refl) as [(v & H1 & H2)|[H1 H2]].
  - split; [left; exists v; auto|]. remember (select_by english (l0 :: rest) l0) as x.
    destruct H2 as (pre & post & E & _). rewrite E.
    apply in_or_app; right; left; reflexivity.
  - rewrite H2. split; [right; split; [exact H1|exists rest; reflexivity]|left; reflexivity].
Qed.

(** There is only one such label. *)
Theorem C30_unique labels x y : main_label labels x -> main_label labels y -> x = y.
Proof.
  assert (Hf : forall {A} (P : A -> Prop) l a b, first_with P l a -> first_with P l b -> a = b).
  { intros A P l a b (p1 & q1 & -> & Pa & H1) (p2 & q2 & E & Pb & H2).
    revert p2 E H2. induction p1 as [|z p1 IH]; intros [|w p2] E H2; cbn in E; inversion E; subst.
    - reflexivity.
    - exfalso. apply (H2 w); [left; reflexivity|exact Pa].
    - exfalso. apply (H1 b); [left; reflexivity|exact Pb].
    - eapply IH; [intros c Hc; apply H1; right; exact Hc|eassumption|intros c Hc; apply H2; right; exact Hc]. }
  intros [(v & V1 & X)|[N1 (r & E)]] [(w & V2 & Y)|[N2 (r' & E')]].
  - rewrite (Hf _ _ _ _ _ V2 V1) in Y. eapply Hf; eassumption.
  - exfalso. destruct V1 as (pre & post & Ev & (l & Hl & <-) & _). apply (N2 l Hl). rewrite Ev.
    apply in_or_app; right; left; reflexivity.
  - exfalso. destruct V2 as (pre & post & Ev & (l & Hl & <-) & _). apply (N1 l Hl). rewrite Ev.
    apply in_or_app; right; left; reflexivity.
  - congruence.
Qed.

Definition s_label (text lang : string) : label := Label (u text) [] (u lang) standard_role.
Example C30_sample :
  l_text (select_main_label [s_label "Wert" "de"; s_label "British" "en-GB"; s_label "Value" "en-US"; s_label "Other" "en-US"])
    = u "Value" /\
  l_text (select_main_label [s_label "Wert" "de"; s_label "Valeur" "fr"]) = u "Wert".
Proof. split; reflexivity. Qed.

Print Assumptions C30_main_label.
Print Assumptions C30_unique.

(** * C31 *)

Theorem C31_parameters filing library system available passed f :
  exists b, p_flags (infer_output_params filing library system available passed) f = Some b /\
    effective (p_flags passed f) (p_flags filing f) (p_flags library f) b.
Proof.
  eexists; split; [reflexivity|]. unfold get_preferred_output_parameter.
  destruct (p_flags passed f); [constructor|]. destruct (p_flags filing f); [constructor|].
  destruct (p_flags library f); constructor.
Qed.

(** The languages obey the flags, but those for system and report the wrong way round. *)
Theorem C31_languages_partial filing library system available passed :
  let eff := infer_output_params filing library system available passed in
  exists s r d all l, p_flags eff AllowSystem = Some s /\ p_flags eff AllowReport = Some r /\
    p_flags eff AllowDefault = Some d /\ p_langs eff = Some (LList l) /\
    preference filing library system available (p_langs passed) r s d all /\ without_repetition all l.
Proof.
  cbn zeta.
  set (g f := get_preferred_output_parameter filing library (p_flags passed f) f).
  destruct (C28_languages filing library system available (p_langs passed) (g AllowSystem) (g AllowReport) (g AllowDefault))
    as (all & H1 & H2).
  exists (g AllowSystem), (g AllowReport), (g AllowDefault), all.
  exists (get_preferred_languages filing library system available (p_langs passed) (g AllowSystem) (g AllowReport) (g AllowDefault)).
  repeat (split; [reflexivity|]). split; [exact H1|exact H2].
Qed.

(** So it is right when both flags agree. *)
Theorem C31_languages_agree filing library system available passed :
  let eff := infer_output_params filing library system available passed in
  p_flags eff AllowSystem = p_flags eff AllowReport ->
  exists s r d all l, p_flags eff AllowSystem = Some s /\ p_flags eff AllowReport = Some r /\
    p_flags eff AllowDefault = Some d /\ p_langs eff = Some (LList l) /\
    preference filing library system available (p_langs passed) s r d all /\ without_repetition all l.
Proof.
  cbn zeta. intros E.
  destruct (C31_languages_partial filing library system available passed) as (s & r & d & all & l & H1 & H2 & H3 & H4 & H5 & H6).
  exists s, r, d, all, l. repeat (split; [assumption|]). split; [|exact H6]. rewrite H1, H2 in E. inversion E; subst. exact H5.
Qed.

(** The system language is forbidden and the languages of the report are allowed: the other way round. *)
Theorem C31_refuted :
  let passed := Params None (fun f => match f with AllowSystem => Some false | AllowReport => Some true
                                      | AllowDefault => Some false | _ => None end) in
  p_langs (infer_output_params no_params initial_library (Some (u "en_US")) [u "fr"] passed)
    = Some (LList [u "en_US"]).
Proof. reflexivity. Qed.

(** Setting one parameter forgets the others. *)
Theorem C31_set_refuted : exists old new,
  p_flags old AllowMixed = Some true /\ p_flags new AllowMixed = None /\
  p_flags (set_output_params old new) AllowMixed = None /\
  p_flags (infer_output_params no_params (set_output_params old new) None [] no_params) AllowMixed = Some false.
Proof.
  exists initial_library, (Params (Some (LStr (u "de"))) (fun _ => None)). repeat split.
Qed.

Example C31_sample :
  p_flags (infer_output_params (Params None (fun f => match f with AllowMixed => Some false | _ => None end))
             initial_library None [] (Params None (fun f => match f with MatchLocale => Some false | _ => None end))) AllowMixed
    = Some false /\
  p_flags (infer_output_params (Params None (fun f => match f with AllowMixed => Some false | _ => None end))
             initial_library None [] (Params None (fun f => match f with MatchLocale => Some false | _ => None end))) MatchLocale
    = Some false /\
  p_flags (infer_output_params (Params None (fun f => match f with AllowMixed => Some false | _ => None end))
             initial_library None [] (Params None (fun f => match f with MatchLocale => Some false | _ => None end))) AllowReport
    = Some true.
Proof. repeat split. Qed.

Print Assumptions C31_parameters.
Print Assumptions C31_languages_partial.
Print Assumptions C31_languages_agree.
Print Assumptions C31_refuted.
Print Assumptions C31_set_refuted.

(** * C52: one row per element *)

Theorem C52_mixed {A R} (convert : A -> list str -> res R) languages elements rows :
  generate_rows convert true languages elements = Ok rows <-> rows_in convert languages elements rows.
Proof. apply map_res_forall2. Qed.

(** Without mixing one language gives one row per element if it suffices, and no row otherwise. *)
Theorem C52_single_partial {A R} (convert : A -> list str -> res R) language elements :
  (forall rows, rows_in convert [language] elements rows ->
     generate_rows convert false [language] elements = Ok rows) /\
  (fails_in convert elements language -> generate_rows convert false [language] elements = Ok []).
Proof.
  split.
  - intros rows H. cbn. rewrite (add_rows_good convert language elements rows) by exact H. reflexivity.
  - intros H. cbn. rewrite add_rows_bad by exact H. reflexivity.
Qed.

(** In general the rows of all languages after the last one that fails. *)
Theorem C52_unmixed {A R} (convert : A -> list str -> res R) languages elements :
  exists bad good blocks, languages = bad ++ good /\
    (bad = [] \/ exists rest l, bad = rest ++ [l] /\ fails_in convert elements l) /\
    Forall2 (fun l b => rows_in convert [l] elements b) good blocks /\
    generate_rows convert false languages elements = Ok (concat blocks).
Proof.
  induction languages as [|l ls IH] using rev_ind.
  - exists [], [], []. repeat split; [left; reflexivity|constructor].
  - destruct IH as (bad & good & blocks & -> & Hbad & Hgood & H).
    assert (E : generate_rows convert false ((bad ++ good) ++ [l]) elements = Ok (add_rows convert l elements (concat blocks))).
    { unfold generate_rows in *. inversion H as [H']. rewrite fold_left_app. reflexivity. }
    destruct (good_or_bad convert elements l) as [[rows Hr]|Hf].
    + exists bad, (good ++ [l]), (blocks ++ [rows]). split; [rewrite app_assoc; reflexivity|].
      split; [exact Hbad|]. split; [apply Forall2_app; [exact Hgood|constructor; [exact Hr|constructor]]|].
      rewrite E, (add_rows_good convert l elements rows) by exact Hr. rewrite concat_app. cbn.
      rewrite app_nil_r. reflexivity.
    + exists ((bad ++ good) ++ [l]), [], []. split; [rewrite app_nil_r; reflexivity|].
      split; [right; exists (bad ++ good), l; auto|]. split; [constructor|].
      rewrite E, add_rows_bad by exact Hf. reflexivity.
Qed.

(** Two languages that suffice: each element twice.  A last language that does not: no rows. *)
Theorem C52_refuted : exists (convert : nat -> list str -> res str),
  generate_rows convert false [u "en"; u "de"] [1; 2] = Ok [u "en"; u "en"; u "de"; u "de"] /\
  generate_rows convert false [u "en"; u "xx"] [1; 2] = Ok [].
Proof.
  exists (fun _ ls => match ls with [l] => if str_eqb l (u "xx") then Raise KeyError else Ok l | _ => Raise ValueError end).
  split; reflexivity.
Qed.
Example C52_sample : exists (convert : nat -> list str -> res str),
  generate_rows convert true [u "en"; u "de"] [1; 2] = Ok [u "en"; u "en"] /\
  generate_rows convert false [u "en"] [1; 2] = Ok [u "en"; u "en"].
Proof.
  exists (fun _ ls => match ls with l :: _ => Ok l | _ => Raise ValueError end). split; reflexivity.
Qed.

Print Assumptions C52_mixed.
Print Assumptions C52_single_partial.
Print Assumptions C52_unmixed.
Print Assumptions C52_refuted.

(** * C53: a translated row keeps all characteristics *)
Section Row.
Variable lower : str -> str.
Variable m : bool.
Variable t : translations.
Variable labels_of : element -> list label.
Variable aspect_labels : str -> list label.
Local Notation text := (get_text lower m t).
Local Notation row_of := (localized_fact lower m t labels_of aspect_labels).

Definition column_made (languages : list str) (a key : str) : Prop :=
  get_from_labels lower m (aspect_labels a) languages a = Ok key.
Definition cell_made (c : context) (languages : list str) (a v : str) : Prop :=
  localized_characteristic lower m t labels_of c a languages = Ok v.

Lemma forall2_length {A B} (P : A -> B -> Prop) l l' : Forall2 P l l' -> length l = length l'.
Proof. induction 1; cbn; congruence. Qed.

Lemma localized_aspects_spec c languages aspects row row' :
  localized_aspects lower m t labels_of aspect_labels c languages aspects row = Ok row' ->
  exists keys vals, Forall2 (column_made languages) aspects keys /\ Forall2 (cell_made c languages) aspects vals /\
    (NoDup (map fst row ++ keys) -> row' = row ++ combine keys vals).
Proof.
  revert row; induction aspects as [|a rest IH]; intros row; cbn [localized_aspects].
  - intros [= <-]. exists [], []. repeat split; try constructor. intros _. rewrite app_nil_r. reflexivity.
  - destruct (get_from_labels lower m (aspect_labels a) languages a) as [key|] eqn:Ek; cbn [bind]; [|discriminate].
    destruct (localized_characteristic lower m t labels_of c a languages) as [v|] eqn:Ev; cbn [bind]; [|discriminate].
    intros H. destruct (IH _ H) as (keys & vals & H1 & H2 & H3).
    exists (key :: keys), (v :: vals). split; [constructor; assumption|]. split; [constructor; assumption|].
    intros Hn. cbn [combine].
    assert (Hkey : ~ In key (map fst row)).
    { intros Hin. apply NoDup_remove_2 in Hn. apply Hn, in_or_app; left; exact Hin. }
    rewrite (dict_set_keys_new _ str_eqb_spec) in H3 by exact Hkey.
    rewrite H3.
    + rewrite <- app_assoc. reflexivity.
    + rewrite map_app, <- app_assoc. exact Hn.
Qed.

Hypothesis Hlower : forall s, lower (lower s) = lower s.
Hypothesis Hkeys : NoDup (map fst t).
(** The column of an aspect is headed by its label, or else its name. *)
Definition column (languages : list str) (a key : str) : Prop := first_answer (label_answers lower m (aspect_labels a) a) languages key.
(** The cell shows the translated characteristic. *)
Definition cell (c : context) (languages : list str) (a v : str) : Prop :=
  match get_characteristic c a with
  | Some x => translated lower m t labels_of languages x v
  | None => word lower m t languages "literal" (u "none") v
  end.
Lemma split_char_at c (p s : str) : ~ In c p -> split_char c (p ++ c :: s) = p :: split_char c s.
Proof.
  induction p as [|x p IH]; intros H; cbn [app split_char].
  - rewrite N.eqb_refl. reflexivity.
  - destruct (N.eqb_spec x c) as [->|_]; [destruct H; left; reflexivity|]. rewrite IH; [reflexivity|]. intros K. apply H. right. exact K.
Qed.

Lemma text_word kind name languages v : ~ In (ch ":") (u kind) -> text (u kind ++ ch ":" :: name) languages = Ok v -> word lower m t languages kind name v.
Proof.
  intros Hk. unfold get_text. rewrite (split_char_at _ _ _ Hk). destruct (split_char_head (ch ":") name) as (n & ps & -> & Hn & Hc).
  intros H. exists (QName (base ++ u kind) [] n). split; [|apply (proj1 (C29_translation_partial lower m t _ languages Hlower Hkeys)); exact H].
  exists n. split; [exact Hn|]. split; [|unfold base; reflexivity]. destruct Hc as [(_ & ->)|(r & -> & _)]; [left; reflexivity|right; exists r; reflexivity].
Qed.
Lemma forall2_impl' {A B} (P Q : A -> B -> Prop) l l' : (forall x y, P x y -> Q x y) -> Forall2 P l l' -> Forall2 Q l l'.
Proof. intros H F. induction F; constructor; auto. Qed.
Lemma column_is languages a key : column_made languages a key -> column languages a key.
Proof. apply C29_labels. Qed.
Lemma cell_is c languages a v : cell_made c languages a v -> cell c languages a v.
Proof.
  unfold cell_made, cell, localized_characteristic. destruct (get_characteristic c a) as [x|] eqn:E; intros H.
  - destruct x; cbn [localized_value] in H.
    + constructor. apply C29_labels. exact H.
    + injection H as <-. constructor.
    + injection H as <-. constructor.
    + constructor. apply (text_word "unit"); [|exact H]. vm_compute. intuition discriminate.
    + constructor. apply C29_labels. exact H.
    + injection H as <-. constructor.
  - apply (text_word "literal"); [|exact H]. vm_compute. intuition discriminate.
Qed.

(** If all columns have different names the row has one for each aspect, with its value, then id and
    value.  The aspects are those of the context, see C25. *)
Theorem C53_row_partial f languages row : languages <> [] -> row_of f languages = Ok row ->
  exists keys vals id_literal value_literal id_text,
    Forall2 (column languages) (c_aspects (f_context f)) keys /\
    Forall2 (cell (f_context f) languages) (c_aspects (f_context f)) vals /\
    word lower m t languages "literal" (u "id") id_literal /\
    word lower m t languages "literal" (u "value") value_literal /\
    (match f_id f with
     | Some (c :: i) => id_text = c :: i
     | _ => word lower m t languages "literal" (u "none") id_text
     end) /\
    (NoDup (keys ++ [id_literal; value_literal]) ->
     row = combine keys vals ++ [(id_literal, id_text); (value_literal, f_value f)]).
Proof.
  intros Hl. unfold localized_fact. destruct languages as [|l0 ls]; [congruence|]. set (languages := l0 :: ls).
  destruct (localized_aspects _ _ _ _ _ _ languages _ []) as [row1|] eqn:E1; cbn [bind]; [|discriminate].
  destruct (text (u "literal:id") languages) as [idl|] eqn:E2; cbn [bind]; [|discriminate].
  destruct (text (u "literal:value") languages) as [vl|] eqn:E3; cbn [bind]; [|discriminate].
  apply localized_aspects_spec in E1 as (keys & vals & H1 & H2 & H3).
  assert (Hmain : forall id_text row2, Ok (dict_set str_eqb row1 idl id_text) = Ok row2 ->
     Ok (dict_set str_eqb row2 vl (f_value f)) = Ok row -> NoDup (keys ++ [idl; vl]) ->
     row = combine keys vals ++ [(idl, id_text); (vl, f_value f)]).
  { intros id_text row2 [= <-] [= <-] Hn.
    assert (Hlen : length keys = length vals).
    { apply forall2_length in H1, H2. congruence. }
    assert (Hfst : map fst (combine keys vals) = keys).
    { clear -Hlen. revert vals Hlen. induction keys as [|k keys IH]; intros [|v vals] H; cbn in *; try congruence.
      f_equal. apply IH. congruence. }
    assert (Hn1 : NoDup keys).
    { clear -Hn. induction keys as [|k keys IH]; [constructor|]. inversion Hn as [|? ? Ha Hb]; subst.
      constructor; [intros H; apply Ha, in_or_app; left; exact H|apply IH, Hb]. }
    rewrite (H3 Hn1). cbn [app].
    assert (Hid : ~ In idl (map fst (combine keys vals))).
    { rewrite Hfst. intros H. apply NoDup_remove_2 in Hn. apply Hn, in_or_app; left; exact H. }
    rewrite (dict_set_keys_new _ str_eqb_spec _ _ _ Hid).
    assert (Hv : ~ In vl (map fst (combine keys vals ++ [(idl, id_text)]))).
    { rewrite map_app, Hfst. cbn [map fst].
      replace (keys ++ [idl; vl]) with ((keys ++ [idl]) ++ [vl]) in Hn by (rewrite <- app_assoc; reflexivity).
      apply NoDup_remove_2 in Hn. rewrite app_nil_r in Hn. exact Hn. }
    rewrite (dict_set_keys_new _ str_eqb_spec _ _ _ Hv). rewrite <- app_assoc. reflexivity. }
  assert (Hw : forall name x, text (u "literal" ++ ch ":" :: name) languages = Ok x -> word lower m t languages "literal" name x)
    by (intros name x; apply text_word; vm_compute; intuition discriminate).
  assert (K1 : Forall2 (column languages) (c_aspects (f_context f)) keys) by (eapply forall2_impl'; [apply column_is|exact H1]).
  assert (K2 : Forall2 (cell (f_context f) languages) (c_aspects (f_context f)) vals) by (eapply forall2_impl'; [apply cell_is|exact H2]).
  apply (Hw (u "id")) in E2 as K3. apply (Hw (u "value")) in E3 as K4.
  destruct (f_id f) as [[|c i]|] eqn:Ef.
  - destruct (text (u "literal:none") languages) as [n|] eqn:E4; cbn [bind]; [|discriminate].
    intros H. exists keys, vals, idl, vl, n. apply (Hw (u "none")) in E4 as K5. repeat (split; [assumption || reflexivity|]). eapply Hmain; [reflexivity|exact H].
  - cbn [bind]. intros H. exists keys, vals, idl, vl, (c :: i).
    repeat (split; [assumption || reflexivity|]). eapply Hmain; [reflexivity|exact H].
  - destruct (text (u "literal:none") languages) as [n|] eqn:E4; cbn [bind]; [|discriminate].
    intros H. exists keys, vals, idl, vl, n. apply (Hw (u "none")) in E4 as K5. repeat (split; [assumption || reflexivity|]). eapply Hmain; [reflexivity|exact H].
Qed.

Lemma get_text_default p s languages : In [] languages -> (exists k, split_char (ch ":") s = k :: p) -> p <> [] ->
  exists x, text s languages = Ok x.
Proof.
  intros Hl [k Hs] Hp. unfold get_text. rewrite Hs. destruct p as [|l r]; [congruence|].
  destruct (C29_default lower m t (QName (base ++ k) [] l) languages [] [] Hl) as [H _]. exact H.
Qed.

(** With the empty language every fact has a row. *)
Theorem C53_default f languages : In [] languages -> exists row, row_of f languages = Ok row.
Proof.
  intros Hl. unfold localized_fact. destruct languages as [|l0 ls]; [destruct Hl|].
  set (languages := l0 :: ls) in *.
  assert (Hlit : forall k : str, (exists a b, split_char (ch ":") k = a :: b :: []) -> exists x, text k languages = Ok x).
  { intros k (a & b & E). eapply get_text_default; [exact Hl|exists a; exact E|discriminate]. }
  assert (Hunit : forall n, exists x, text (u "unit:" ++ n) languages = Ok x).
  { intros n. eapply get_text_default; [exact Hl|exists (u "unit"); cbn; reflexivity|].
    destruct (split_char_head (ch ":") n) as (p & ps & E & _). intros E'. cbn in E. rewrite E' in E. discriminate. }
  assert (Hlab : forall ls' d, exists x, get_from_labels lower m ls' languages d = Ok x).
  { intros ls' d. destruct (C29_default lower m [] (QName [] [] []) languages ls' d Hl) as [_ H]. exact H. }
  assert (Hcell : forall a, exists v, localized_characteristic lower m t labels_of (f_context f) a languages = Ok v).
  { intros a. unfold localized_characteristic. destruct (get_characteristic (f_context f) a) as [x|].
    - destruct x; cbn [localized_value]; try (eexists; reflexivity); apply Hlab || apply Hunit.
    - apply Hlit. eexists _, _. vm_compute. reflexivity. }
  assert (Hrow : forall aspects row, exists row', localized_aspects lower m t labels_of aspect_labels (f_context f) languages aspects row = Ok row').
  { intros aspects. induction aspects as [|a rest IH]; intros row; cbn [localized_aspects]; [eexists; reflexivity|].
    destruct (Hlab (aspect_labels a) a) as [k Ek]. rewrite Ek. cbn [bind].
    destruct (Hcell a) as [v Ev]. rewrite Ev. cbn [bind]. apply IH. }
  destruct (Hrow (c_aspects (f_context f)) []) as [row E]. rewrite E. cbn [bind].
  destruct (Hlit (u "literal:id")) as [i Ei]; [eexists _, _; vm_compute; reflexivity|]. rewrite Ei. cbn [bind].
  destruct (Hlit (u "literal:value")) as [v Ev]; [eexists _, _; vm_compute; reflexivity|]. rewrite Ev. cbn [bind].
  destruct (Hlit (u "literal:none")) as [n En]; [eexists _, _; vm_compute; reflexivity|]. rewrite En. cbn [bind].
  destruct (f_id f) as [[|]|]; cbn [bind]; eexists; reflexivity.
Qed.
End Row.

Definition s_fact (chars : list characteristic) : fact :=
  Fact (fold_left add_characteristic chars (new_context (u "c1"))) (u "7") (Some (u "f1")).
Definition s_cash : element := Element (QName (u "urn:t") (u "t") (u "Cash")) None KConcept 1.
Definition s_dim : element := Element (QName (u "urn:t") (u "t") (u "Axis")) None KDimension 2.
Definition s_rows (languages : list str) (chars : list characteristic) : res (list (str * str)) :=
  localized_fact ascii_lower true s_table (fun _ => [s_label "Cash and more" "en-US"]) core_aspect_labels
    (s_fact chars) languages.

Example C53_sample :
  s_rows [u "en-US"; []] [ChConcept s_cash; ChEntity (u "E") (u "s"); ChUnit (u "usd:x") [] []; ChTyped s_dim (u "3") (u "t:Axis")] =
  Ok [(u "Concept [Axis]", u "Cash and more"); (u "Entity [Axis]", u "{s}E"); (u "t:Axis", u "3"); (u "Unit [Axis]", u "usd");
      (u "id", u "f1"); (u "Value", u "7")] /\ NoDup (map fst s_table) /\ (forall s, ascii_lower (ascii_lower s) = ascii_lower s).
Proof.
  split; [vm_compute; reflexivity|]. split; [|exact ascii_lower_lower].
  replace (map fst s_table) with [QName (u "http://www.brel.com/translations/literal") [] (u "value")] by (vm_compute; reflexivity). constructor; [intros []|constructor].
Qed.

(** A dimension has no labels: without the default there is no row (and no table). *)
Theorem C53_dimension_refuted :
  s_rows [u "en-US"] [ChConcept s_cash; ChTyped s_dim (u "3") (u "t:Axis")] = Raise ValueError.
Proof. vm_compute. reflexivity. Qed.
(** A dimension written without prefix can have the name of another column: its value is lost. *)
Theorem C53_collision_refuted :
  s_rows [u "en-US"; []] [ChConcept s_cash; ChTyped s_dim (u "3") (u "Value")] =
  Ok [(u "Value", u "7"); (u "Concept [Axis]", u "Cash and more"); (u "id", u "f1")].
Proof. vm_compute. reflexivity. Qed.

Print Assumptions C53_row_partial.
Print Assumptions C53_default.
Print Assumptions C53_dimension_refuted.
Print Assumptions C53_collision_refuted.
