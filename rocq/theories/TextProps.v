(** Properties C14-C16: text of facts, continuation chains, escaping. *)
From Verif Require Import Base TextModel TextSpec TextProofs.
Local Open Scope nat_scope.

(** *** C14: the text of a continued fact *)

(** Without comments or processing instructions in the content, the value of a fact that is not
    escaped is the text of the content of its parts in document order. *)
Theorem C14_text_of_continued_fact : forall tostring escape fact chain,
  escape = None \/ escape = Some [] \/ escape = Some (u "false") ->
  has_remark (fact_content (fact :: chain)) = false ->
  non_numeric_value tostring escape fact chain = Ok (text_of (fact_content (fact :: chain)), []).
Proof.
  intros ts escape fact chain Hesc H. pose proof (chain_content fact chain) as Hc. rewrite H in Hc.
  destruct Hc as (n & E & Hi & _). unfold non_numeric_value.
  destruct Hesc as [->|[->| ->]]; rewrite E; cbn [bind]; (rewrite text_of_inside; [rewrite Hi; reflexivity|rewrite Hi; exact H]).
Qed.

(** The markup, too, is that of the content: ix:exclude is dropped with all it holds, other ix
    elements are replaced by their content, everything else is as in the document. *)
Theorem C14_markup_of_continued_fact : forall fact chain,
  has_remark (fact_content (fact :: chain)) = false ->
  exists n, extract_relevant_content_from_continuation_chain (fact :: chain) = Ok n /\
            inside n = fact_content (fact :: chain).
Proof.
  intros fact chain H. pose proof (chain_content fact chain) as Hc. rewrite H in Hc.
  destruct Hc as (n & E & Hi & _). eauto.
Qed.

(** A comment in the content is fatal, whatever else is there; nothing else is. *)
Theorem C14_raises_iff : forall tostring escape fact chain,
  has_remark (fact_content (fact :: chain)) = true <-> exists x, non_numeric_value tostring escape fact chain = Raise x.
Proof.
  intros ts escape fact chain. pose proof (chain_content fact chain) as Hc. unfold non_numeric_value.
  destruct (has_remark (fact_content (fact :: chain))).
  - split; [|reflexivity]. intros _. rewrite Hc. cbn [bind].
    destruct (match escape with Some _ => _ | None => _ end). eauto.
  - split; [discriminate|]. intros [x Hx]. destruct Hc as (n & E & _). rewrite E in Hx. cbn [bind] in Hx.
    destruct (match escape with Some _ => _ | None => _ end) in Hx. discriminate.
Qed.

Definition elt (tag : string) (text : string) (kids : list xml) (tail : string) : xml :=
  Node false (u tag) [] (Some (u text)) kids (Some (u tail)).
Definition remark (tail : string) : xml := Node true [] [] None [] (Some (u tail)).

(** <ix:nonNumeric>a<p>b<ix:exclude>x<i>y</i>z</ix:exclude>c</p>d<ix:nonFraction>12<b>3</b></ix:nonFraction>e</...>
    continued by <ix:continuation>f<ix:exclude>g</ix:exclude>h</...> *)
Definition ex_fact : xml :=
  elt "ix:nonNumeric" "a" [
    elt "p" "b" [elt "ix:exclude" "x" [elt "i" "y" [] "z"] "c"] "d";
    elt "ix:nonFraction" "12" [elt "b" "3" [] ""] "e"] "TAIL".
Definition ex_cont : xml := elt "ix:continuation" "f" [elt "ix:exclude" "g" [] "h"] "TAIL".
Example ex_C14_text :
  has_remark (fact_content [ex_fact; ex_cont]) = false /\
  text_of (fact_content [ex_fact; ex_cont]) = u "abcd123efh" /\
  non_numeric_value plain_tostring None ex_fact [ex_cont] = Ok (u "abcd123efh", []).
Proof. vm_compute. auto. Qed.
Example ex_C14_markup :
  fact_content [ex_fact; ex_cont] =
    [TChar (ch "a"); TStart (u "p") []; TChar (ch "b"); TChar (ch "c"); TEnd; TChar (ch "d");
     TChar (ch "1"); TChar (ch "2"); TStart (u "b") []; TChar (ch "3"); TEnd; TChar (ch "e");
     TChar (ch "f"); TChar (ch "h")].
Proof. vm_compute. reflexivity. Qed.
(** A comment inside ix:exclude does no harm. *)
Example ex_C14_excluded_comment :
  non_numeric_value plain_tostring None (elt "ix:nonNumeric" "a" [elt "ix:exclude" "x" [remark "y"] "b"] "") [] = Ok (u "ab", []).
Proof. vm_compute. reflexivity. Qed.

(** The property does not hold of documents with comments: a comment contributes no characters
    but the fact has no value. *)
Theorem C14_comment_refuted : exists fact,
  text_of (fact_content [fact]) = u "ab" /\
  forall tostring escape, exists x, non_numeric_value tostring escape fact [] = Raise x.
Proof.
  exists (elt "ix:nonNumeric" "a" [remark "b"] ""). split; [vm_compute; reflexivity|].
  intros ts escape. apply C14_raises_iff. vm_compute. reflexivity.
Qed.

(** *** C15: continuation chains *)

(** When no continuable element leads into a cycle, the chains are built, with rounds to spare
    after one more than there are continuations; each element gets exactly what following
    continuedAt gives; missing targets, elements on two chains and unused ids are reported, and
    each only then. *)
Theorem C15_chains : forall fuel facts footnotes conts taken,
  (forall e, In e (continuable facts footnotes) -> exists chain d, follows conts (ce_cont e) chain d) ->
  length conts < fuel ->
  exists chains errs taken',
    create_continuation_chains fuel facts footnotes conts taken = Some (chains, errs, taken') /\
    map fst chains = continuable facts footnotes /\
    (forall e chain, In (e, chain) chains -> exists d, follows conts (ce_cont e) chain d) /\
    (forall k id, In (InvalidId k id) errs <->
       exists e chain, In e (continuable facts footnotes) /\ ce_key e = k /\ follows conts (ce_cont e) chain (Some id)) /\
    (forall k id, In (Reused k id) errs <->
       exists pre e post c, continuable facts footnotes = pre ++ e :: post /\ ce_key e = k /\
         on_chain conts e c /\ ce_id c = Some id /\ exists e', In e' pre /\ on_chain conts e' c) /\
    (forall id, (exists ids, In (Unused ids) errs /\ In id ids) <->
       (exists c, In c conts /\ ce_id c = Some id) /\
       ~ exists e c, In e (continuable facts footnotes) /\ on_chain conts e c /\ ce_id c = Some id).
Proof.
  intros fuel facts footnotes conts taken Hall Hf. unfold create_continuation_chains.
  destruct (check_continuation_ids conts taken) as [errs0 taken'] eqn:E0.
  assert (H0 : forall x, In x errs0 -> match x with WithoutId _ | DuplicateId _ _ => True | _ => False end).
  { clear -E0. unfold check_continuation_ids in E0.
    assert (G : forall l er tk, (forall x, In x er -> match x with WithoutId _ | DuplicateId _ _ => True | _ => False end) ->
      forall x, In x (fst (fold_left (fun '(errs, taken) e => match ce_id e with
        | None => (errs ++ [WithoutId (ce_key e)], taken)
        | Some id => (errs ++ (if smem id taken then [DuplicateId (ce_key e) id] else []), id :: taken) end) l (er, tk))) ->
        match x with WithoutId _ | DuplicateId _ _ => True | _ => False end).
    { induction l as [|e l IH]; intros er tk Her x; [apply Her|]. cbn [fold_left].
      destruct (ce_id e) as [id|]; apply IH; intros y Hy; apply in_app_or in Hy as [Hy|Hy]; try (apply Her; exact Hy).
      - destruct (smem id tk); [destruct Hy as [<-|[]]; exact I|destruct Hy].
      - destruct Hy as [<-|[]]. exact I. }
    intros x Hx. apply (G conts [] taken); [intros y []|]. rewrite E0. exact Hx. }
  change (filter (fun e => contains (u "nonNumeric") (ce_tag e)) facts ++ footnotes) with (continuable facts footnotes).
  destruct (chains_loop_spec conts _ fuel [] [] errs0 Hall Hf) as (cs & us & er & El & HF & Hus & Hinv & Hk).
  pose proof (chains_reused conts _ _ _ _ _ _ El) as Hre. cbn [snd] in Hre. rewrite El. cbn [app].
  do 3 eexists. split; [reflexivity|].
  assert (Hdesc : forall x, In x (descendant_errors cs) -> match x with InvalidDescendant _ _ => True | _ => False end).
  { clear. unfold descendant_errors. intros x Hx. apply in_concat in Hx as (l & Hl & Hx).
    apply in_map_iff in Hl as (p & <- & _). apply in_concat in Hx as (l & Hl & Hx). apply in_map_iff in Hl as (q & <- & _).
    apply in_map_iff in Hx as (d & <- & _). exact I. }
  set (un := filter (fun id => negb (smem id (us ++ []))) (dict_keys (continuation_index conts))).
  assert (Hun : forall x, In x (match un with [] => [] | _ => [Unused un] end) <-> un <> [] /\ x = Unused un).
  { intros x. destruct un; cbn; [|]; intuition (congruence || discriminate). }
  assert (Hch : forall e c, In e (continuable facts footnotes) -> on_chain conts e c ->
    exists p, In p cs /\ In c (snd p)).
  { intros e c He (ch & d & Hfo & Hc). clear -HF He Hfo Hc. induction HF as [|e0 p els ps [Hp (d' & Hp')] HF IH]; [destruct He|].
    destruct He as [<-|He]; [|destruct (IH He) as (q & Hq & Hcq); exists q; cbn; auto].
    exists p. split; [left; reflexivity|]. subst e0. destruct (follows_unique _ _ _ _ Hfo _ _ Hp') as [<- _]. exact Hc. }
  assert (Hch' : forall p, In p cs -> In (fst p) (continuable facts footnotes) /\ exists d, follows conts (ce_cont (fst p)) (snd p) d).
  { intros p Hp. clear -HF Hp. induction HF as [|e0 q els ps [Hq (d' & Hq')] HF IH]; [destruct Hp|].
    destruct Hp as [<-|Hp]; [|destruct (IH Hp); cbn; auto]. rewrite Hq at 1. split; [left; reflexivity|eauto]. }
  repeat split.
  - clear -HF. induction HF as [|e p els ps [Hp _] HF IH]; [reflexivity|]. cbn. rewrite Hp, IH. reflexivity.
  - intros e chain Hp. apply (Hch' (e, chain)), Hp.
  - rewrite !in_app_iff, Hinv, Hun. intros [[H|H]|[H|[_ H]]]; [destruct (H0 _ H)|exact H|destruct (Hdesc _ H)|discriminate].
  - rewrite !in_app_iff, Hinv. auto.
  - rewrite in_app_iff, (Hre ltac:(intros ? [])), in_app_iff, Hun.
    intros [[H|H]|[H|[_ H]]]; [destruct (H0 _ H)| |destruct (Hdesc _ H)|discriminate].
    destruct H as (pre & e & post & c & ? & ? & ? & ? & [[]|Hor]). exists pre, e, post, c. auto.
  - intros (pre & e & post & c & ? & ? & ? & ? & Hor). rewrite in_app_iff, (Hre ltac:(intros ? [])).
    left. right. exists pre, e, post, c. auto 10.
  - destruct H as (ids & H & Hid). rewrite !in_app_iff, Hun in H.
    destruct H as [[H|H]|[H|[_ H]]]; [destruct (H0 _ H)|destruct (Hk _ H)|destruct (Hdesc _ H)|].
    injection H as ->. apply filter_In in Hid as [Hid _]. apply index_keys, Hid.
  - destruct H as (ids & H & Hid). rewrite !in_app_iff, Hun in H.
    destruct H as [[H|H]|[H|[_ H]]]; [destruct (H0 _ H)|destruct (Hk _ H)|destruct (Hdesc _ H)|].
    injection H as ->. apply filter_In in Hid as [_ Hid]. intros (e & c & He & Hon & Hc).
    destruct (Hch _ _ He Hon) as (p & Hp & Hcp).
    assert (Hin : In id us) by (apply Hus; eauto). rewrite app_nil_r in Hid. apply smem_in in Hin. rewrite Hin in Hid. discriminate.
  - intros [Hc Hno]. exists un. assert (Hin : In id un).
    { unfold un. apply filter_In. split; [apply index_keys, Hc|]. rewrite app_nil_r.
      destruct (smem id us) eqn:E; [|reflexivity]. exfalso. apply smem_in, Hus in E as (p & c & Hp & Hcp & Hi).
      destruct (Hch' _ Hp) as [Hp1 [d Hd]]. apply Hno. exists (fst p), c. repeat split; [exact Hp1|exists (snd p), d; auto|exact Hi]. }
    split; [|exact Hin]. rewrite !in_app_iff, Hun. right. right. split; [|reflexivity]. intros Hn. rewrite Hn in Hin. destruct Hin.
Qed.

(** Building the chains ends exactly when no continuable element leads into a cycle. *)
Theorem C15_ends_iff : forall facts footnotes conts taken,
  (exists fuel r, create_continuation_chains fuel facts footnotes conts taken = Some r) <->
  (forall e, In e (continuable facts footnotes) -> exists chain d, follows conts (ce_cont e) chain d).
Proof.
  intros facts footnotes conts taken. split.
  - intros (fuel & r & Hr). unfold create_continuation_chains in Hr.
    destruct (check_continuation_ids conts taken) as [errs0 taken'].
    destruct (chains_loop _ _ _ _ _ _) as [[[chains used] errs]|] eqn:E; [|discriminate].
    exact (chains_loop_ends _ _ _ _ _ _ _ E).
  - intros H. destruct (C15_chains (S (length conts)) facts footnotes conts taken H (Nat.lt_succ_diag_r _)) as (? & ? & ? & E & _). eauto.
Qed.

(** What following gives is unique, and finite chains never pass an element twice. *)
Theorem C15_chain_unique : forall conts o chain d chain' d',
  follows conts o chain d -> follows conts o chain' d' -> chain' = chain /\ d' = d.
Proof. intros * H H'. destruct (follows_unique _ _ _ _ H _ _ H'). auto. Qed.
Theorem C15_chain_nodup : forall conts o chain d, follows conts o chain d -> NoDup chain.
Proof. exact follows_nodup. Qed.

Definition fct (k : nat) (cont : string) : celem := CElem k (u "ix:nonNumeric") None (Some (u cont)) [].
Definition cnt (k : nat) (id : string) (cont : option string) : celem :=
  CElem k (u "ix:continuation") (Some (u id)) (option_map u cont) [].

(** Two facts, one with a chain of two, the other sharing the second of these; one unused
    element; a third fact with a missing target. *)
Example ex_C15 :
  let conts := [cnt 4 "b" None; cnt 5 "a" (Some "b"%string); cnt 6 "z" None] in
  let facts := [fct 1 "a"; fct 2 "b"; fct 3 "nowhere"] in
  (forall e, In e (continuable facts []) -> exists chain d, follows conts (ce_cont e) chain d) /\
  create_continuation_chains 4 facts [] conts [] =
    Some ([(fct 1 "a", [cnt 5 "a" (Some "b"%string); cnt 4 "b" None]); (fct 2 "b", [cnt 4 "b" None]); (fct 3 "nowhere", [])],
          [Reused 2 (u "b"); InvalidId 3 (u "nowhere"); Unused [u "z"]],
          [u "z"; u "a"; u "b"]).
Proof.
  cbn zeta. split; [|vm_compute; reflexivity].
  apply C15_ends_iff with (taken := []). exists 4. eexists. vm_compute. reflexivity.
Qed.

(** Not every document: an element that continues itself is followed for ever. *)
Theorem C15_cycle_refuted : exists facts conts, forall fuel footnotes taken,
  create_continuation_chains fuel facts footnotes conts taken = None.
Proof.
  exists [fct 1 "a"], [cnt 2 "a" (Some "a"%string)]. intros fuel footnotes taken.
  destruct (create_continuation_chains _ _ _ _ _) as [r|] eqn:E; [|reflexivity]. exfalso.
  assert (H : exists fuel r, create_continuation_chains fuel [fct 1 "a"] footnotes [cnt 2 "a" (Some "a"%string)] taken = Some r) by eauto.
  rewrite C15_ends_iff in H. destruct (H (fct 1 "a")) as (chain & d & Hfo); [cbn; auto|].
  assert (G : forall o chain d, follows [cnt 2 "a" (Some "a"%string)] o chain d -> o <> Some (u "a")).
  { clear. induction 1 as [|id Ht|id c ch d Ht Hf IH]; intros Ho; [discriminate| |].
    - injection Ho as ->. vm_compute in Ht. discriminate.
    - injection Ho as ->. vm_compute in Ht. injection Ht as <-. apply IH. reflexivity. }
  exact (G _ _ _ Hfo eq_refl).
Qed.

(** *** C16: escaping *)

(** For any text: the entities undo, and no markup character remains. *)
Theorem C16_convert_reversible : forall t,
  unescape 0 (convert_escaped_characters t) = t /\
  escaped (convert_escaped_characters t) /\
  (forall c, In c (convert_escaped_characters t) -> c <> ch "<" /\ c <> ch ">" /\ c <> 34%N /\ c <> ch "'").
Proof.
  intros t. split; [apply unescape_convert|]. split; [apply convert_escaped_ok|].
  apply escaped_no_raw, convert_escaped_ok.
Qed.
(** So different texts have different escaped forms. *)
Theorem C16_convert_injective : forall s t, convert_escaped_characters s = convert_escaped_characters t -> s = t.
Proof. intros s t H. rewrite <- (unescape_convert s), <- (unescape_convert t), H. reflexivity. Qed.

Lemma tokens_of_kids kids : forallb (fun c => negb (x_remark c)) kids = true ->
  (exists l, concat (map tokens kids) = map TChar l) -> kids = [].
Proof.
  destruct kids as [|[r t a s k l] kids]; [reflexivity|]. cbn. destruct r; [discriminate|]. intros _ [[|? ?] H]; discriminate.
Qed.
Lemma map_tchar_inj a b : map TChar a = map TChar b -> a = b.
Proof. revert b. induction a as [|x a IH]; intros [|y b]; try discriminate; [reflexivity|]. cbn. intros H. f_equal; [congruence|apply IH; congruence]. Qed.

(** A fact of text only, possibly in several parts and with ix:exclude: escaping and unescaping
    give the text. *)
Theorem C16_text_only_reversible : forall tostring escape fact chain t,
  escape <> None -> escape <> Some [] -> escape <> Some (u "false") ->
  fact_content (fact :: chain) = map TChar t ->
  exists v errs, non_numeric_value tostring escape fact chain = Ok (v, errs) /\ unescape 0 v = t /\ escaped v.
Proof.
  intros ts escape fact chain t H1 H2 H3 H. pose proof (chain_content fact chain) as Hc.
  assert (Hr : has_remark (fact_content (fact :: chain)) = false).
  { rewrite H. clear. induction t; [reflexivity|exact IHt]. }
  rewrite Hr in Hc. destruct Hc as (n & E & Hi & Cn). rewrite H in Hi.
  unfold non_numeric_value. destruct escape as [[|c s]|]; [congruence| |congruence].
  assert (Ef : str_eqb (c :: s) (u "false") = false) by (apply str_eqb_neq; intros X; apply H3; f_equal; exact X).
  rewrite Ef, orb_false_r, E. cbn [bind].
  assert (Hv : escape_content ts n = convert_escaped_characters t).
  { destruct n as [r tg a x kids l]. unfold clean in Cn. cbn [x_kids] in Cn. cbn [inside] in Hi.
    assert (kids = []) as ->.
    { apply tokens_of_kids; [exact Cn|]. exists (skipn (length (chars x)) t).
      assert (Hs : skipn (length (chars x)) (chars x ++ concat (map tokens kids)) = skipn (length (chars x)) (map TChar t)) by congruence.
      rewrite skipn_app, skipn_all, Nat.sub_diag in Hs. rewrite <- skipn_map. exact Hs. }
    unfold escape_content. cbn in *. rewrite app_nil_r in *. destruct x as [x|]; cbn in *.
    - apply map_tchar_inj in Hi. subst x. reflexivity.
    - destruct t; [reflexivity|discriminate]. }
  destruct (str_eqb (c :: s) (u "true")); rewrite Hv; do 2 eexists; (split; [reflexivity|]);
    (split; [apply unescape_convert|apply convert_escaped_ok]).
Qed.

(** Content with elements: only markup-free text survives; then the value is the serialised
    content. *)
Fixpoint quiet (e : xml) : Prop :=
  let 'Node _ _ _ text kids tail := e in
  (forall s c, text = Some s \/ tail = Some s -> In c s -> ~ In c (map snd entities)) /\
  fold_right and True (map quiet kids).
Lemma convert_quiet s : (forall c, In c s -> ~ In c (map snd entities)) -> convert_escaped_characters s = s.
Proof.
  intros H. rewrite convert_map. induction s as [|c s IH]; [reflexivity|]. cbn [map concat].
  rewrite IH by (intros x Hx; apply H; right; exact Hx).
  destruct (esc1_cases c) as [(p & Hp & _)|[_ ->]]; [|reflexivity].
  exfalso. apply (H c); [left; reflexivity|]. apply in_map_iff. exists (p, c). auto.
Qed.
Lemma convert_recursive_quiet e : quiet e -> convert_escaped_characters_recursive e = e.
Proof.
  induction e as [r t a s kids l IH] using xml_ind'. cbn [quiet convert_escaped_characters_recursive]. intros [Hs Hk].
  f_equal.
  - destruct s as [s|]; [|reflexivity]. cbn. f_equal. apply convert_quiet. intros c Hc. apply (Hs s c); auto.
  - induction IH as [|k kids H1 H2 IHk]; [reflexivity|]. cbn in Hk |- *. destruct Hk as [Hk1 Hk2]. f_equal; auto.
  - destruct l as [l|]; [|reflexivity]. cbn. f_equal. apply convert_quiet. intros c Hc. apply (Hs l c); auto.
Qed.
Theorem C16_quiet_markup_kept : forall tostring content,
  Forall quiet (x_kids content) ->
  escape_content tostring content =
    convert_escaped_characters (match x_text content with Some t => t | None => [] end) ++
    concat (map tostring (x_kids content)).
Proof.
  intros ts [r t a s kids l] H. unfold escape_content. cbn in *. f_equal; [destruct s; reflexivity|].
  induction H as [|k kids Hk H IH]; [reflexivity|]. cbn. rewrite convert_recursive_quiet by exact Hk. f_equal. exact IH.
Qed.

Example ex_C16_text :
  let fact := elt "ix:nonNumeric" "a < b & c" [elt "ix:exclude" "no" [] " > &amp; 'd'"] "" in
  let v := u "a &lt; b &amp; c &gt; &amp;amp; &apos;d&apos;" in
  fact_content [fact] = map TChar (u "a < b & c > &amp; 'd'") /\
  non_numeric_value plain_tostring (Some (u "true")) fact [] = Ok (v, []) /\
  unescape 0 v = u "a < b & c > &amp; 'd'".
Proof. vm_compute. auto. Qed.
Example ex_C16_quiet :
  Forall quiet (x_kids (elt "x" "1 < 2" [elt "b" "bold" [elt "i" "it" [] "y"] "tail"] "")) /\
  escape_content plain_tostring (elt "x" "1 < 2" [elt "b" "bold" [elt "i" "it" [] "y"] "tail"] "") =
    u "1 &lt; 2<b>bold<i>it</i>y</b>tail".
Proof.
  split; [|vm_compute; reflexivity]. repeat constructor; cbn; intros s c [E|E] Hc; injection E as <-; cbn in Hc;
    intuition (subst; discriminate).
Qed.

(** Text inside an element is escaped twice: the serialiser escapes what has been escaped
    already, so unescaping gives another text. *)
Theorem C16_nested_refuted : exists fact,
  text_of (fact_content [fact]) = u "a & b" /\
  non_numeric_value plain_tostring (Some (u "true")) fact [] = Ok (u "<b>a &amp;amp; b</b>", []) /\
  unescape 0 (u "<b>a &amp;amp; b</b>") = u "<b>a &amp; b</b>".
Proof. exists (elt "ix:nonNumeric" "" [elt "b" "a & b" [] ""] ""). vm_compute. auto. Qed.

Print Assumptions C14_text_of_continued_fact.
Print Assumptions C14_markup_of_continued_fact.
Print Assumptions C14_raises_iff.
Print Assumptions C14_comment_refuted.
Print Assumptions C15_chains.
Print Assumptions C15_ends_iff.
Print Assumptions C15_chain_unique.
Print Assumptions C15_chain_nodup.
Print Assumptions C15_cycle_refuted.
Print Assumptions C16_convert_reversible.
Print Assumptions C16_convert_injective.
Print Assumptions C16_text_only_reversible.
Print Assumptions C16_quiet_markup_kept.
Print Assumptions C16_nested_refuted.
