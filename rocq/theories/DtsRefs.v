(** Proofs about the extraction of references (C54). *)
From Verif Require Import Base Regex RegexProofs DtsModel DtsSpec.

Lemma quotes_spec c : cset_mem (quotes false) c = true <-> quote c.
Proof.
  unfold quotes, cset_mem, quote. rewrite xorb_false_l. split.
  - intros H. apply existsb_exists in H as (i & Hi & H).
    cbn [In] in Hi. destruct Hi as [<-|[<-|[]]]; cbn [citem_mem] in H;
      apply andb_prop in H as [A B]; apply N.leb_le in A, B; [left|right]; lia.
  - intros [->| ->]; reflexivity.
Qed.

Lemma not_quotes_spec c : cset_mem (quotes true) c = true <-> ~ quote c.
Proof.
  rewrite <- quotes_spec. unfold quotes, cset_mem; cbn [xorb].
  destruct (existsb _ _); cbn; split; intros H; try discriminate; try congruence; exfalso; apply H; auto.
Qed.

Definition key_group (key : str) (n : nat) : Prop := (key = href_key /\ n = 1) \/ (key = schema_key /\ n = 2).

Lemma key_no_quote key n : key_group key n -> forall c, In c key -> ~ quote c.
Proof.
  intros K c Hc Hq. assert (E : forallb (fun c => cset_mem (quotes true) c) key = true).
  { destruct K as [[-> _]|[-> _]]; vm_compute; reflexivity. }
  rewrite forallb_forall in E. apply E in Hc. apply not_quotes_spec in Hc. auto.
Qed.

Lemma pattern_MT s s' c : MT reference_pattern s [] s' c <->
  exists key n q1 body q2, key_group key n /\ s = key ++ q1 :: body ++ q2 :: s' /\ quote q1 /\ quote q2 /\
    body <> [] /\ (forall x, In x body -> ~ quote x) /\ c = [(n, body)].
Proof.
  unfold reference_pattern, quoted. cbn [MT]. split.
  - intros H.
    assert (G : exists key n, key_group key n /\ exists s1 c1, (s = key ++ s1 /\ c1 = []) /\
      exists s2 c2, (exists x, s1 = x :: s2 /\ cset_mem (quotes false) x = true /\ c2 = c1) /\
      exists s3 c3, (exists c4 p, (exists p, s2 = p ++ s3 /\ forallb (cset_mem (quotes true)) p = true /\
         1 <= length p /\ True /\ c4 = c2) /\ s2 = p ++ s3 /\ c3 = (n, p) :: c4) /\
      exists x, s3 = x :: s' /\ cset_mem (quotes false) x = true /\ c = c3).
    { destruct H as [H|H]; [exists href_key, 1|exists schema_key, 2];
        (split; [unfold key_group; auto|]); exact H. }
    clear H. destruct G as (key & n & K & s1 & c1 & [-> ->] & s2 & c2 & (q1 & -> & Hq1 & ->) & s3 & c3 &
      (c4 & p & (p' & E & Hf & Hl & _ & ->) & -> & ->) & q2 & -> & Hq2 & ->).
    apply app_inv_tail in E. subst p'.
    exists key, n, q1, p, q2. apply quotes_spec in Hq1, Hq2.
    repeat split; auto.
    + intros ->; cbn in Hl; lia.
    + intros x Hx. rewrite forallb_forall in Hf. apply not_quotes_spec; auto.
  - intros (key & n & q1 & body & q2 & K & -> & Hq1 & Hq2 & Hb & Hn & ->).
    apply quotes_spec in Hq1, Hq2.
    assert (Hf : forallb (cset_mem (quotes true)) body = true).
    { apply forallb_forall. intros x Hx. apply not_quotes_spec; auto. }
    assert (Hl : 1 <= length body) by (destruct body; [congruence|cbn; lia]).
    destruct K as [[-> ->]|[-> ->]]; [left|right]; do 2 eexists; (split; [split; reflexivity|]);
      do 2 eexists; (split; [eexists; repeat split; eauto|]);
      exists (q2 :: s'); eexists; (split; [|exists q2; repeat split; eauto]);
      exists [], body; (split; [exists body|]); repeat split; auto; exact I.
Qed.

(** The part before the first quote is determined. *)
Lemma first_quote (a b x y : str) q p : (forall c, In c a -> ~ quote c) -> (forall c, In c b -> ~ quote c) ->
  quote q -> quote p -> a ++ q :: x = b ++ p :: y -> a = b /\ q = p /\ x = y.
Proof.
  revert b; induction a as [|c a IH]; intros b Ha Hb Hq Hp E.
  - destruct b as [|d b]; cbn in E; injection E; intros; subst; auto.
    exfalso; apply (Hb d); cbn; auto.
  - destruct b as [|d b]; cbn in E; injection E; intros E1 E2; subst.
    + exfalso; apply (Ha p); cbn; auto.
    + destruct (IH b) as (-> & -> & ->); auto; intros e He; [apply Ha|apply Hb]; cbn; auto.
Qed.

Lemma find_sound f : forall s c, In c (finditer f s) ->
  exists pre rest s', s = pre ++ rest /\ MT reference_pattern rest [] s' c.
Proof.
  induction f as [|f IH]; intros s c; cbn [finditer]; [intros []|].
  destruct (mt reference_pattern s [] _) as [[s' c']|] eqn:E.
  - apply mt_sound in E as (s1 & c1 & H & E). injection E as -> ->.
    intros [<-|Hc].
    + exists [], s, s'. auto.
    + destruct (MT_prefix _ _ _ _ _ H) as [p ->].
      destruct (IH _ _ Hc) as (pre & rest & s2 & -> & Hm).
      exists (p ++ pre), rest, s2. rewrite <- app_assoc. auto.
  - destruct s as [|a t]; [intros []|]. intros Hc.
    destruct (IH _ _ Hc) as (pre & rest & s2 & -> & Hm). exists (a :: pre), rest, s2. auto.
Qed.

Lemma key_group_in key n : key_group key n -> In key [u ":href="; u "schemaLocation="].
Proof. intros [[-> _]|[-> _]]; cbn [In]; auto. Qed.

Lemma key_group_ends key n key' n' pre : key_group key n -> key_group key' n' -> pre ++ key = key' -> pre = [].
Proof.
  intros K K' E. destruct pre as [|c pre]; [reflexivity|exfalso].
  assert (L : length (c :: pre) + length key = length key') by (rewrite <- E, app_length; reflexivity).
  cbn [length] in L.
  destruct K as [[-> ->]|[-> ->]], K' as [[-> ->]|[-> ->]]; cbn in L; try lia.
  assert (F : ends_with href_key schema_key = true).
  { rewrite <- E. unfold ends_with. rewrite rev_app_distr.
    generalize (rev (c :: pre)). clear. intros l. vm_compute. reflexivity. }
  vm_compute in F. discriminate.
Qed.

Lemma tame_suffix pre s : tame (pre ++ s) -> tame s.
Proof.
  intros T key body K (p & q1 & q2 & post & -> & H) key' K'. apply (T key body K); auto.
  exists (pre ++ p), q1, q2, post. rewrite <- app_assoc. auto.
Qed.

Lemma app_eq_cases (a b c d : str) : a ++ b = c ++ d ->
  (exists l, a = c ++ l /\ d = l ++ b) \/ (exists x l, c = a ++ x :: l /\ b = x :: l ++ d).
Proof.
  revert c; induction a as [|x a IH]; intros c E; cbn in E.
  - subst b. destruct c as [|y c]; [left; exists []; auto|right; exists y, c; auto].
  - destruct c as [|y c]; cbn in E.
    + left; exists (x :: a); subst d; auto.
    + injection E as -> E. destruct (IH _ E) as [(l & -> & ->)|(z & l & -> & ->)].
      * left; exists l; auto.
      * right; exists z, l; auto.
Qed.

(** A match is not cut by an earlier one. *)
Lemma no_overlap s key n q1 body q2 post key' n' p1 body' p2 s' pre :
  key_group key n -> key_group key' n' -> quote q1 -> quote q2 -> quote p1 -> quote p2 ->
  (forall c, In c body -> ~ quote c) -> (forall c, In c body' -> ~ quote c) ->
  (forall b, body' <> b ++ key) -> pre <> [] ->
  s = pre ++ key ++ q1 :: body ++ q2 :: post -> s = key' ++ p1 :: body' ++ p2 :: s' ->
  exists l, pre = (key' ++ p1 :: body' ++ [p2]) ++ l /\ s' = l ++ key ++ q1 :: body ++ q2 :: post.
Proof.
  intros K K' Q1 Q2 P1 P2 Hb Hb' He Hp -> E.
  replace (key' ++ p1 :: body' ++ p2 :: s') with ((key' ++ p1 :: body' ++ [p2]) ++ s') in E
    by (rewrite <- app_assoc; cbn; rewrite <- app_assoc; reflexivity).
  apply app_eq_cases in E as [(l & -> & ->)|(x & l & E1 & E2)]; [eauto|exfalso].
  assert (Kn := key_no_quote _ _ K). assert (Kn' := key_no_quote _ _ K').
  (* the match ends with the quote p2 and begins strictly before the key *)
  assert (L : exists l2, x :: l = key ++ q1 :: l2).
  { replace (x :: l ++ s') with ((x :: l) ++ s') in E2 by reflexivity.
    assert (E3 : (x :: l) ++ s' = key ++ q1 :: body ++ q2 :: post) by (symmetry; exact E2).
    apply app_eq_cases in E3 as [(m & E3 & E4)|(y & m & E3 & E4)].
    - destruct m as [|z m].
      + rewrite app_nil_r in E3. exfalso.
        assert (In p2 key).
        { rewrite <- E3. assert (In p2 (pre ++ x :: l)) as I.
          { rewrite <- E1. apply in_or_app; right; right. apply in_or_app; right; left; reflexivity. }
          assert (N : exists l', x :: l = l' ++ [p2]).
          { assert (R := f_equal (@rev N) E1). cbn [rev] in R.
            rewrite !rev_app_distr in R. cbn [rev] in R. rewrite !rev_app_distr in R. cbn [rev app] in R.
            exists (rev (tl (rev (x :: l)))).
            assert (N1 : rev (x :: l) <> []) by (cbn; intros F; apply app_eq_nil in F as [_ F]; discriminate).
            destruct (rev (x :: l)) as [|w ws] eqn:Er; [congruence|].
            assert (w = p2) as ->.
            { cbn [rev] in Er. rewrite Er in R. cbn in R. congruence. }
            cbn [tl]. rewrite <- (rev_involutive (x :: l)), Er. reflexivity. }
          destruct N as (l' & ->). apply in_or_app; right; left; reflexivity. }
        apply (Kn p2); auto.
      + injection E4 as <- E4. eauto.
    - exfalso. assert (In p2 key).
      { rewrite E3. assert (N : In p2 (x :: l)).
        { assert (R := f_equal (fun z => last z 0%N) E1).
          replace (key' ++ p1 :: body' ++ [p2]) with ((key' ++ p1 :: body') ++ [p2]) in R
            by (rewrite <- app_assoc; reflexivity).
          cbv beta in R. rewrite last_last in R. rewrite R.
          assert (G : forall a (b : str) c, last (a ++ c :: b) 0%N = last (c :: b) 0%N).
          { intros a b c. induction a as [|z a IH]; [reflexivity|].
            rewrite <- IH. cbn [app]. destruct a; reflexivity. }
          rewrite G. clear. generalize x as y. induction l as [|z l IH]; intros y; [left; reflexivity|].
          right. apply (IH z). }
        apply in_or_app; left; exact N. }
      apply (Kn p2); auto. }
  destruct L as (l2 & L). rewrite L in E1.
  (* the first quote of the match *)
  destruct (list_eq_dec N.eq_dec (pre ++ key) key') as [E|E].
  { apply Hp. exact (key_group_ends _ _ _ _ _ K K' E). }
  (* pre contains a quote, namely p1 *)
  assert (Hpre : exists a, pre = key' ++ p1 :: a /\ body' ++ [p2] = a ++ key ++ q1 :: l2).
  { assert (E1' : pre ++ (key ++ q1 :: l2) = key' ++ p1 :: body' ++ [p2]) by (symmetry; exact E1).
    apply app_eq_cases in E1' as [(m & E3 & E4)|(y & m & E3 & E4)].
    - destruct m as [|z m].
      + rewrite app_nil_r in E3. cbn [app] in E4.
        destruct (first_quote key [] l2 (body' ++ [p2]) q1 p1) as (F & _);
          [exact Kn|intros c []|assumption|assumption|symmetry; exact E4|].
        exfalso. destruct K as [[-> _]|[-> _]]; discriminate.
      + cbn [app] in E4. injection E4 as <- E4. exists m. auto.
    - exfalso. subst key'. destruct (first_quote key (y :: m) l2 (body' ++ [p2]) q1 p1) as (F & _);
        [exact Kn| |assumption|assumption|exact E4|].
      + intros c Hc. apply Kn'. apply in_or_app; auto.
      + subst key. apply E. reflexivity. }
  destruct Hpre as (a & -> & E3).
  assert (E3' : (a ++ key) ++ q1 :: l2 = body' ++ p2 :: []) by (rewrite <- app_assoc; auto).
  destruct (first_quote (a ++ key) body' l2 [] q1 p2) as (F & _); auto.
  - intros c Hc Hq.
    assert (I : In c (a ++ key)) by exact Hc.
    apply in_app_or in Hc as [Hc|Hc]; [|apply (Kn c); auto].
    (* a is a part of body' ++ [p2] before its last character *)
    assert (A : exists m, body' = a ++ m).
    { apply app_eq_cases in E3 as [(m & -> & _)|(y & m & -> & F)]; [eauto|].
      exfalso. assert (length (key ++ q1 :: l2) >= 1) by (rewrite app_length; cbn; lia).
      assert (length [p2] = length (y :: m ++ key ++ q1 :: l2)) by (rewrite <- F; reflexivity).
      cbn in H0. rewrite app_length in H0. lia. }
    destruct A as (m & ->). apply (Hb' c); auto. apply in_or_app; auto.
  - apply (He a). auto.
Qed.

Lemma find_complete f : forall s pre key n q1 body q2 post, length s < f -> tame s ->
  key_group key n -> s = pre ++ key ++ q1 :: body ++ q2 :: post -> quote q1 -> quote q2 -> body <> [] ->
  (forall c, In c body -> ~ quote c) -> In [(n, body)] (finditer f s).
Proof.
  induction f as [|f IH]; intros s pre key n q1 body q2 post L T K E Q1 Q2 Hb Hn; [lia|].
  cbn [finditer].
  destruct (mt reference_pattern s [] _) as [[s' c']|] eqn:M.
  - apply mt_sound in M as (s1 & c1 & H & M). injection M as -> ->.
    apply pattern_MT in H as (key' & n' & p1 & body' & p2 & K' & E' & P1 & P2 & Hb' & Hn' & ->).
    destruct pre as [|x pre].
    + left. cbn [app] in E. rewrite E' in E.
      destruct (first_quote key' key (body' ++ p2 :: s') (body ++ q2 :: post) p1 q1) as (-> & -> & F); auto.
      { exact (key_no_quote _ _ K'). } { exact (key_no_quote _ _ K). }
      destruct (first_quote body' body s' post p2 q2) as (-> & _); auto.
      f_equal. f_equal.
      destruct K as [[-> ->]|[-> ->]], K' as [[? ->]|[? ->]]; try reflexivity; discriminate.
    + right.
      destruct (no_overlap s key n q1 body q2 post key' n' p1 body' p2 s' (x :: pre)) as (l & Hl & ->); auto.
      { intros b Eb. apply (T key' body' (key_group_in _ _ K')) with (key' := key); eauto.
        - exists [], p1, p2, s'. auto.
        - eapply key_group_in; eauto. }
      { discriminate. }
      apply (IH _ l key n q1 body q2 post); auto.
      * subst s. rewrite E' in L. rewrite app_length in L. cbn in L. rewrite app_length in L. cbn in L. lia.
      * rewrite E' in T.
        replace (key' ++ p1 :: body' ++ p2 :: l ++ key ++ q1 :: body ++ q2 :: post)
          with ((key' ++ p1 :: body' ++ [p2]) ++ (l ++ key ++ q1 :: body ++ q2 :: post)) in T
          by (rewrite <- app_assoc; cbn; rewrite <- app_assoc; reflexivity).
        eapply tame_suffix; eauto.
  - destruct pre as [|x pre].
    + exfalso. cbn [app] in E.
      assert (H : MT reference_pattern s [] post [(n, body)]).
      { apply pattern_MT. exists key, n, q1, body, q2. repeat split; auto. }
      apply (mt_complete _ _ _ _ _ (fun s' c => Some (s', c)) H); [discriminate|exact M].
    + subst s. cbn [app]. eapply (IH _ pre key n q1 body q2 post); auto.
      * cbn in L. lia.
      * apply (tame_suffix [x]). exact T.
Qed.

(** ** Splitting *)

Lemma join_cons sep p q l : join sep (p :: q :: l) = p ++ sep ++ join sep (q :: l).
Proof. reflexivity. Qed.

Lemma split_nonempty c s : split_char c s <> [].
Proof.
  destruct s as [|x s]; cbn; [discriminate|]. destruct (N.eqb x c); [discriminate|].
  destruct (split_char c s); discriminate.
Qed.

Lemma split_no_sep c s : forall p, In p (split_char c s) -> ~ In c p.
Proof.
  induction s as [|x s IH]; cbn; intros p.
  - intros [<-|[]] [].
  - destruct (N.eqb_spec x c) as [->|Hn].
    + intros [<-|H]; [intros []|auto].
    + pose proof (split_nonempty c s) as E. destruct (split_char c s) as [|q l]; [congruence|].
      intros [<-|H].
      * intros [F|F]; [congruence|]. apply (IH q); cbn; auto.
      * apply IH; cbn; auto.
Qed.

Lemma join_split c s : join [c] (split_char c s) = s.
Proof.
  induction s as [|x s IH]; cbn; [reflexivity|].
  pose proof (split_nonempty c s) as E.
  destruct (N.eqb_spec x c) as [->|Hn]; destruct (split_char c s) as [|q l]; try congruence.
  - rewrite join_cons, IH. reflexivity.
  - destruct l as [|r l]; cbn [join app] in *; [congruence|]. rewrite <- IH. reflexivity.
Qed.

Lemma split_prefix c (p s : str) : ~ In c p -> split_char c (p ++ c :: s) = p :: split_char c s.
Proof.
  induction p as [|x p IH]; intros H; cbn.
  - rewrite N.eqb_refl. reflexivity.
  - destruct (N.eqb_spec x c) as [->|Hn]; [exfalso; apply H; cbn; auto|].
    rewrite IH; [reflexivity|]. intros F; apply H; cbn; auto.
Qed.

Lemma split_none c (p : str) : ~ In c p -> split_char c p = [p].
Proof.
  induction p as [|x p IH]; intros H; cbn; [reflexivity|].
  destruct (N.eqb_spec x c) as [->|Hn]; [exfalso; apply H; cbn; auto|].
  rewrite IH; [reflexivity|]. intros F; apply H; cbn; auto.
Qed.

Lemma split_join c (parts : list str) : parts <> [] -> (forall p, In p parts -> ~ In c p) ->
  split_char c (join [c] parts) = parts.
Proof.
  induction parts as [|p l IH]; intros Hn H; [congruence|].
  destruct l as [|q l].
  - cbn. apply split_none. apply H; cbn; auto.
  - rewrite join_cons. cbn [app]. rewrite split_prefix by (apply H; cbn; auto).
    f_equal. apply IH; [discriminate|]. intros x Hx; apply H; cbn [In] in *; auto.
Qed.

Lemma mem_char_In c s : mem_char c s = true <-> In c s.
Proof.
  unfold mem_char. rewrite existsb_exists. split.
  - intros (x & Hx & E). apply N.eqb_eq in E. subst; auto.
  - intros H; exists c; split; auto. apply N.eqb_refl.
Qed.

Lemma mem_char_false c s : mem_char c s = false <-> ~ In c s.
Proof.
  rewrite <- mem_char_In. destruct (mem_char c s); split; intros H; congruence.
Qed.

(** ** Words *)

Lemma last_word_app p c t r : last_word t r -> is_space c = true -> last_word (p ++ c :: t) r.
Proof.
  intros (Hr & Hn & pre & post & -> & Hp & Hs) Hc. split; [auto|split; [auto|]].
  exists (p ++ c :: pre), post. rewrite <- app_assoc. split; [reflexivity|split; [auto|right]].
  destruct Hs as [->|(pre' & d & -> & Hd)].
  - exists p, c. auto.
  - exists (p ++ c :: pre'), d. rewrite <- app_assoc. auto.
Qed.

Lemma words_nil s : forall cur, words cur s = [] -> cur = [] /\ forall c, In c s -> is_space c = true.
Proof.
  induction s as [|c s IH]; intros cur; cbn [words].
  - destruct cur; [intros _; split; [auto|intros ? []]|discriminate].
  - destruct (is_space c) eqn:Ec.
    + destruct cur; [|discriminate]. intros H. destruct (IH _ H) as [_ Hs].
      split; [auto|]. intros d [<-|Hd]; auto.
    + intros H. destruct (IH _ H) as [F _]. destruct cur; discriminate.
Qed.

Lemma words_spaces s : (forall c, In c s -> is_space c = true) -> words [] s = [].
Proof.
  induction s as [|c s IH]; intros H; cbn [words]; [reflexivity|].
  rewrite (H c) by (cbn; auto). apply IH. intros d Hd; apply H; cbn; auto.
Qed.

Lemma last_cons_nonempty {A} (x : A) l d : l <> [] -> last (x :: l) d = last l d.
Proof. destruct l; [congruence|reflexivity]. Qed.

Lemma words_last s : forall cur, (forall c, In c cur -> is_space c = false) -> words cur s <> [] ->
  last_word (cur ++ s) (last (words cur s) []).
Proof.
  induction s as [|c s IH]; intros cur Hc Hw; cbn [words] in *.
  - destruct cur as [|x cur]; [congruence|]. cbn [last].
    rewrite app_nil_r. split; [discriminate|split; [auto|]].
    exists [], []. rewrite app_nil_r. repeat split; auto.
  - destruct (is_space c) eqn:Ec.
    + destruct cur as [|x cur].
      * apply (last_word_app []); auto. apply (IH []); auto.
      * destruct (words [] s) as [|w l] eqn:Ew.
        -- cbn [last]. apply words_nil in Ew as [_ Hs].
           split; [discriminate|split; [auto|]]. exists [], (c :: s).
           repeat split; auto. intros d [<-|Hd]; auto.
        -- rewrite last_cons_nonempty by discriminate. apply last_word_app; auto.
           rewrite <- Ew. apply (IH []); [intros ? []|congruence].
    + replace (cur ++ c :: s) with ((cur ++ [c]) ++ s) by (rewrite <- app_assoc; reflexivity).
      apply IH; auto. intros d Hd. apply in_app_or in Hd as [Hd|[<-|[]]]; auto.
Qed.

Lemma words_word r : forall cur post, (forall c, In c r -> is_space c = false) ->
  (forall c, In c post -> is_space c = true) -> cur ++ r <> [] -> words cur (r ++ post) = [cur ++ r].
Proof.
  induction r as [|c r IH]; intros cur post Hr Hp Hn; cbn [app words].
  - rewrite app_nil_r in *. destruct post as [|d post]; cbn [words].
    + destruct cur; [congruence|reflexivity].
    + rewrite (Hp d) by (cbn; auto). rewrite words_spaces by (intros; apply Hp; cbn; auto).
      destruct cur; [congruence|reflexivity].
  - rewrite (Hr c) by (cbn; auto). rewrite IH; auto.
    + rewrite <- app_assoc. reflexivity.
    + intros; apply Hr; cbn; auto.
    + rewrite <- app_assoc. destruct cur; discriminate.
Qed.

Lemma words_skip pre c t : is_space c = true -> words [] t <> [] ->
  forall cur, last (words cur (pre ++ c :: t)) [] = last (words [] t) [] /\ words cur (pre ++ c :: t) <> [].
Proof.
  intros Hc Ht. induction pre as [|x pre IH]; intros cur; cbn [app words].
  - rewrite Hc. destruct cur; [auto|]. split; [|discriminate]. apply last_cons_nonempty; auto.
  - destruct (is_space x).
    + destruct cur; [apply IH|]. destruct (IH []) as [E N].
      split; [|discriminate]. rewrite last_cons_nonempty; auto.
    + apply IH.
Qed.

Lemma last_word_words t r : last_word t r -> words [] t <> [] /\ last (words [] t) [] = r.
Proof.
  intros (Hr & Hn & pre & post & -> & Hp & Hs).
  assert (W : words [] (r ++ post) = [r]) by (apply (words_word r []); auto).
  destruct Hs as [->|(pre' & c & -> & Hc)].
  - cbn [app]. rewrite W. split; [discriminate|reflexivity].
  - rewrite <- app_assoc. cbn [app].
    destruct (words_skip pre' c (r ++ post) Hc) with (cur := @nil N) as [E N].
    + rewrite W; discriminate.
    + rewrite E, W. auto.
Qed.

(** ** One match *)

Lemma refs_href (body : str) : body <> [] ->
  match match_references [(1, body)] with
  | Ok rs => forall r, In r rs <-> document_of body r
  | Raise e => e = ValueError /\ exists a b c, body = a ++ ch "#" :: b ++ ch "#" :: c
  end.
Proof.
  intros Hb. unfold match_references. cbn [dict_get Nat.eqb].
  destruct body as [|x0 b0] eqn:Eb0; [congruence|]. cbv beta iota. rewrite <- Eb0 in *. clear Eb0 x0 b0 Hb.
  destruct (mem_char (ch "#") body) eqn:M.
  - pose proof (join_split (ch "#") body) as J. pose proof (split_no_sep (ch "#") body) as N.
    apply mem_char_In in M.
    destruct (split_char (ch "#") body) as [|a [|b [|c l]]] eqn:E.
    + exfalso; eapply split_nonempty; eauto.
    + exfalso. cbn in J. subst a. apply (N body); cbn; auto.
    + cbn [bind]. assert (J' : a ++ ch "#" :: b = body) by exact J.
      assert (Na : ~ In (ch "#") a) by (apply N; cbn; auto).
      assert (Nb : ~ In (ch "#") b) by (apply N; cbn; auto).
      assert (D : forall r, document_of body r <-> r = a /\ a <> []).
      { intros r. split.
        - intros (Hr & Hh & [->|(f & F & Hf)]); [contradiction|].
          rewrite <- J' in F.
          assert (S : split_char (ch "#") (a ++ ch "#" :: b) = split_char (ch "#") (r ++ ch "#" :: f)) by congruence.
          rewrite !split_prefix in S by assumption. injection S as -> _. auto.
        - intros [-> Ha]. split; [auto|split; [auto|right; exists b; auto]]. }
      destruct a as [|y a]; cbn [bind app]; intros r; rewrite D; cbn [In]; intuition congruence.
    + cbn [bind]. split; [reflexivity|]. exists a, b, (join [ch "#"] (c :: l)). rewrite <- J. reflexivity.
  - apply mem_char_false in M. cbn [bind].
    assert (D : forall r, document_of body r <-> r = body /\ body <> []).
    { intros r. split.
      - intros (Hr & Hh & [->|(f & F & Hf)]); [auto|].
        exfalso; apply M. rewrite F. apply in_or_app; right; left; reflexivity.
      - intros [-> Ha]. split; [auto|split; [auto|left; auto]]. }
    destruct body as [|y b]; cbn [bind app]; intros r; rewrite D; cbn [In]; intuition congruence.
Qed.

Lemma refs_location (body : str) : body <> [] ->
  match match_references [(2, body)] with
  | Ok rs => forall r, In r rs <-> last_word body r
  | Raise e => e = IndexError /\ forall c, In c body -> is_space c = true
  end.
Proof.
  intros Hb. unfold match_references. cbn [dict_get Nat.eqb bind].
  destruct body as [|x0 b0] eqn:Eb0; [congruence|]. cbv beta iota. rewrite <- Eb0 in *. clear Eb0 x0 b0 Hb.
  destruct (words [] body) as [|w l] eqn:E; cbn [bind app].
  - split; [reflexivity|]. apply words_nil in E. apply E.
  - intros r. split.
    + intros [<-|[]]. rewrite <- E. apply (words_last body []); [intros ? []|congruence].
    + intros H. apply last_word_words in H as [_ H]. rewrite E in H. left; exact H.
Qed.

(** ** The whole document *)

Lemma map_res_ok {A B} (f : A -> res B) l ys : map_res f l = Ok ys ->
  forall y, In y ys <-> exists x, In x l /\ f x = Ok y.
Proof.
  revert ys; induction l as [|a l IH]; cbn; intros ys.
  - intros [= <-] y. split; [intros []|intros (x & [] & _)].
  - destruct (f a) as [b|e] eqn:Ea; cbn; [|discriminate].
    destruct (map_res f l) as [bs|e] eqn:El; cbn; [|discriminate].
    intros [= <-] y. cbn [In]. rewrite (IH bs eq_refl y). split.
    + intros [<-|(x & Hx & E)]; eauto.
    + intros (x & [<-|Hx] & E); [left; congruence|right; eauto].
Qed.

Lemma map_res_ok_all {A B} (f : A -> res B) l ys : map_res f l = Ok ys -> forall x, In x l -> exists y, f x = Ok y.
Proof.
  revert ys; induction l as [|a l IH]; cbn; intros ys; [intros _ x []|].
  destruct (f a) as [b|e] eqn:Ea; cbn; [|discriminate].
  destruct (map_res f l) as [bs|e] eqn:El; cbn; [|discriminate].
  intros _ x [<-|Hx]; eauto.
Qed.

Lemma map_res_raise {A B} (f : A -> res B) l e : map_res f l = Raise e -> exists x, In x l /\ f x = Raise e.
Proof.
  induction l as [|a l IH]; cbn; [discriminate|].
  destruct (f a) as [b|e'] eqn:Ea; cbn.
  - destruct (map_res f l) as [bs|e'] eqn:El; cbn; [discriminate|].
    intros [= ->]. destruct (IH eq_refl) as (x & Hx & E). eauto.
  - intros [= ->]. eauto.
Qed.

Lemma found f s c : In c (finditer f s) -> exists key n body, key_group key n /\ has_attribute s key body /\ c = [(n, body)].
Proof.
  intros H. apply find_sound in H as (pre & rest & s' & -> & H).
  apply pattern_MT in H as (key & n & q1 & body & q2 & K & -> & H).
  exists key, n, body. destruct H as (H1 & H2 & H3 & H4 & ->). repeat split; auto.
  exists pre, q1, q2, s'. auto.
Qed.

Lemma found_all s key n body : tame s -> key_group key n -> has_attribute s key body ->
  In [(n, body)] (finditer (S (length s)) s).
Proof.
  intros T K (pre & q1 & q2 & post & E & H1 & H2 & H3 & H4).
  apply (find_complete _ s pre key n q1 body q2 post); auto.
Qed.

Lemma extract_in s rs : extract_references s = Ok rs -> forall r,
  In r rs <-> exists c, In c (finditer (S (length s)) s) /\ exists l, match_references c = Ok l /\ In r l.
Proof.
  unfold extract_references. destruct (map_res _ _) as [l|e] eqn:E; cbn [bind]; [|discriminate].
  intros [= <-] r. rewrite nodup_In, in_concat. split.
  - intros (x & Hx & Hr). apply (map_res_ok _ _ _ E) in Hx as (c & Hc & Hm). eauto.
  - intros (c & Hc & x & Hm & Hr). exists x; split; auto. apply (map_res_ok _ _ _ E). eauto.
Qed.

Lemma extract_nodup s rs : extract_references s = Ok rs -> NoDup rs.
Proof.
  unfold extract_references. destruct (map_res _ _) as [l|e]; cbn [bind]; [|discriminate].
  intros [= <-]. apply NoDup_nodup.
Qed.

Lemma extract_sound s rs : extract_references s = Ok rs -> forall r, In r rs -> mentions s r.
Proof.
  intros E r Hr. apply (extract_in _ _ E) in Hr as (c & Hc & l & Hm & Hr).
  apply found in Hc as (key & n & body & K & Ha & ->).
  assert (Hb : body <> []) by (destruct Ha as (? & ? & ? & ? & _ & _ & _ & ? & _); auto).
  destruct K as [[-> ->]|[-> ->]].
  - left. exists body. split; [exact Ha|]. pose proof (refs_href body Hb) as R. rewrite Hm in R. apply R; auto.
  - right. exists body. split; [exact Ha|]. pose proof (refs_location body Hb) as R. rewrite Hm in R. apply R; auto.
Qed.

Lemma extract_complete s rs : tame s -> extract_references s = Ok rs -> forall r, mentions s r -> In r rs.
Proof.
  intros T E r Hr. apply (extract_in _ _ E).
  assert (G : exists key n body, key_group key n /\ has_attribute s key body /\
    forall l, match_references [(n, body)] = Ok l -> In r l).
  { destruct Hr as [(body & Ha & D)|(body & Ha & D)];
      assert (Hb : body <> []) by (destruct Ha as (? & ? & ? & ? & _ & _ & _ & ? & _); auto).
    - exists href_key, 1, body. split; [unfold key_group; auto|split; [exact Ha|]]. intros l Hl.
      pose proof (refs_href body Hb) as R. rewrite Hl in R. apply R; auto.
    - exists schema_key, 2, body. split; [unfold key_group; auto|split; [exact Ha|]]. intros l Hl.
      pose proof (refs_location body Hb) as R. rewrite Hl in R. apply R; auto. }
  destruct G as (key & n & body & K & Ha & Hin).
  exists [(n, body)]. split; [eapply found_all; eauto|].
  pose proof (found_all s key n body T K Ha) as Hf.
  unfold extract_references in E. destruct (map_res _ _) as [l|e] eqn:El; [|discriminate].
  destruct (map_res_ok_all _ _ _ El _ Hf) as (y & Hy). eauto.
Qed.

Definition bad_reference (s : str) : Prop :=
  (exists a b c, has_attribute s (u ":href=") (a ++ ch "#" :: b ++ ch "#" :: c)) \/
  (exists body, has_attribute s (u "schemaLocation=") body /\ forall c, In c body -> is_space c = true).

Lemma extract_raise s e : extract_references s = Raise e -> (e = ValueError \/ e = IndexError) /\ bad_reference s.
Proof.
  unfold extract_references. destruct (map_res _ _) as [l|e'] eqn:E; cbn [bind]; [discriminate|].
  intros [= ->]. apply map_res_raise in E as (c & Hc & E).
  apply found in Hc as (key & n & body & K & Ha & ->).
  assert (Hb : body <> []) by (destruct Ha as (? & ? & ? & ? & _ & _ & _ & ? & _); auto).
  destruct K as [[-> ->]|[-> ->]].
  - pose proof (refs_href body Hb) as R. rewrite E in R. destruct R as (-> & a & b & c & ->).
    split; [auto|left]. exists a, b, c. exact Ha.
  - pose proof (refs_location body Hb) as R. rewrite E in R. destruct R as (-> & Hs).
    split; [auto|right]. exists body. split; [exact Ha|exact Hs].
Qed.

Lemma extract_bad s rs : tame s -> bad_reference s -> extract_references s <> Ok rs.
Proof.
  intros T B E. unfold extract_references in E.
  destruct (map_res _ _) as [l|e] eqn:El; [|discriminate].
  destruct B as [(a & b & c & Ha)|(body & Ha & Hs)].
  - assert (Hf := found_all s _ 1 _ T (or_introl (conj eq_refl eq_refl)) Ha).
    destruct (map_res_ok_all _ _ _ El _ Hf) as (y & Hy).
    assert (Hb : a ++ ch "#" :: b ++ ch "#" :: c <> []) by (destruct a; discriminate).
    unfold match_references in Hy. cbn [dict_get Nat.eqb] in Hy.
    destruct (a ++ ch "#" :: b ++ ch "#" :: c) as [|x0 b0] eqn:Eb; [congruence|].
    cbv beta iota in Hy. rewrite <- Eb in *.
    assert (M : mem_char (ch "#") (a ++ ch "#" :: b ++ ch "#" :: c) = true).
    { apply mem_char_In. apply in_or_app; right; left; reflexivity. }
    rewrite M in Hy.
    assert (S : exists x y z l, split_char (ch "#") (a ++ ch "#" :: b ++ ch "#" :: c) = x :: y :: z :: l).
    { clear. assert (G : forall p s, exists q l, split_char (ch "#") (p ++ ch "#" :: s) = q :: l /\
         exists l', l = l' ++ split_char (ch "#") s).
      { intros p s. induction p as [|x p IH].
        - cbn [app split_char]. rewrite N.eqb_refl. exists [], (split_char (ch "#") s).
          split; [reflexivity|exists []; reflexivity].
        - destruct IH as (q & l & E & l' & ->). cbn [app split_char]. rewrite E.
          destruct (N.eqb x (ch "#")).
          + exists [], (q :: l' ++ split_char (ch "#") s). split; [reflexivity|exists (q :: l'); reflexivity].
          + exists (x :: q), (l' ++ split_char (ch "#") s). split; [reflexivity|eauto]. }
      destruct (G a (b ++ ch "#" :: c)) as (q & l & -> & l' & ->).
      destruct (G b c) as (q2 & l2 & -> & l2' & ->).
      pose proof (split_nonempty (ch "#") c). destruct (split_char (ch "#") c) as [|z zs]; [congruence|].
      destruct l' as [|y l']; cbn [app].
      - destruct l2' as [|w l2']; cbn [app]; do 4 eexists; reflexivity.
      - destruct l' as [|w l']; cbn [app]; do 4 eexists; reflexivity. }
    destruct S as (x & y' & z & l0 & S). rewrite S in Hy. discriminate.
  - assert (Hf := found_all s _ 2 _ T (or_intror (conj eq_refl eq_refl)) Ha).
    destruct (map_res_ok_all _ _ _ El _ Hf) as (y & Hy).
    assert (Hb : body <> []) by (destruct Ha as (? & ? & ? & ? & _ & _ & _ & ? & _); auto).
    unfold match_references in Hy. cbn [dict_get Nat.eqb bind] in Hy.
    destruct body as [|x0 b0] eqn:Eb; [congruence|]. cbv beta iota in Hy. rewrite <- Eb in *.
    rewrite words_spaces in Hy by exact Hs. discriminate.
Qed.
