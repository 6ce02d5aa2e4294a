(** Proofs about opening paths. *)
From Verif Require Import Base Regex QNameModel ErrBase ErrModel CtxModel DtsModel DtsSpec DtsRefs OpenModel OpenSpec.
Local Open Scope nat_scope.

Lemma bind_ok {A B} (r : res A) (f : A -> res B) b : bind r f = Ok b -> exists a, r = Ok a /\ f a = Ok b.
Proof. destruct r as [a|e]; cbn; [eauto|discriminate]. Qed.

(** ** Paths *)

Lemma join_snoc sep (l : list str) x : l <> [] -> join sep (l ++ [x]) = join sep l ++ sep ++ x.
Proof.
  induction l as [|y l IH]; intros H; [congruence|]. destruct l as [|z l]; [reflexivity|].
  change ((y :: z :: l) ++ [x]) with (y :: z :: (l ++ [x])).
  rewrite !join_cons. change (z :: l ++ [x]) with ((z :: l) ++ [x]). rewrite IH by discriminate.
  rewrite <- !app_assoc. reflexivity.
Qed.

Lemma join_split_other a b s : join [b] (split_char a s) = subst_char a b s.
Proof.
  induction s as [|x s IH]; [reflexivity|]. unfold subst_char in *. cbn [split_char map].
  pose proof (split_nonempty a s) as E. destruct (N.eqb_spec x a) as [->|Hn].
  - destruct (split_char a s) as [|q l]; [congruence|]. rewrite join_cons, IH. reflexivity.
  - destruct (split_char a s) as [|q l]; [congruence|].
    destruct l as [|r l]; [cbn [join] in *; congruence|]. rewrite join_cons in *. rewrite <- IH. reflexivity.
Qed.

Lemma entry_path_entry p name : entry_path p name = entry p name.
Proof.
  unfold entry_path, entry, slashed. rewrite join_snoc by apply split_nonempty.
  change (u "/") with [ch "/"]. destruct (mem_char (ch "/") p).
  - rewrite join_split. reflexivity.
  - rewrite join_split_other. reflexivity.
Qed.

Lemma slashed_entry p name : slashed (entry p name) = entry p name.
Proof.
  unfold slashed at 1. replace (mem_char (ch "/") (entry p name)) with true; [reflexivity|].
  symmetry. apply mem_char_In. unfold entry. apply in_or_app. right. left. reflexivity.
Qed.

Lemma ends_with_iff p s : ends_with p s = true <-> exists a, s = a ++ p.
Proof.
  assert (S : forall p s, starts_with p s = true <-> exists a, s = p ++ a).
  { clear. induction p as [|x p IH]; intros s; cbn; [split; eauto|]. destruct s as [|y s]; cbn.
    - split; [discriminate|intros (a & E); discriminate].
    - rewrite andb_true_iff, IH, N.eqb_eq. split.
      + intros [-> (a & ->)]. eauto.
      + intros (a & E). injection E as -> ->. split; [reflexivity|eauto]. }
  unfold ends_with. rewrite S. split; intros (a & E).
  - exists (rev a). rewrite <- (rev_involutive s), E, rev_app_distr, rev_involutive. reflexivity.
  - exists (rev a). rewrite E, rev_app_distr. reflexivity.
Qed.

Lemma starts_with_iff p : forall s, starts_with p s = true <-> exists a, s = p ++ a.
Proof.
  induction p as [|x p IH]; intros s; cbn; [split; eauto|]. destruct s as [|y s]; cbn.
  - split; [discriminate|intros (a & E); discriminate].
  - rewrite andb_true_iff, IH, N.eqb_eq. split.
    + intros [-> (a & ->)]. eauto.
    + intros (a & E). injection E as -> ->. split; [reflexivity|eauto].
Qed.

Lemma ends_extension e q : ends_with (ch "." :: e) q = true <-> has_extension e q.
Proof. apply ends_with_iff. Qed.

(** ** Folders *)

Lemma inside_front fs p n d : inside fs p (S n) d <->
  exists name, In name (fs_list fs p) /\ fs_isdir fs (entry p name) = true /\ inside fs (entry p name) n d.
Proof.
  split.
  - revert d. induction n as [|n IH]; intros d H; inversion H as [|m d0 name H1 H2 H3]; subst.
    + inversion H1; subst. exists name. repeat split; auto. constructor.
    + apply IH in H1 as (name0 & A & B & C). exists name0. repeat split; auto. constructor; auto.
  - revert d. induction n as [|n IH]; intros d (name & A & B & C).
    + inversion C; subst. constructor; auto. constructor.
    + inversion C as [|m d0 name0 H1 H2 H3]; subst. constructor; auto. apply IH. eauto.
Qed.

Lemma below_front fs p q : below fs p q <->
  (exists name, In name (fs_list fs p) /\ q = entry p name) \/
  (exists name, In name (fs_list fs p) /\ fs_isdir fs (entry p name) = true /\ below fs (entry p name) q).
Proof.
  split.
  - intros (n & d & name & H1 & H2 & H3). destruct n as [|n].
    + inversion H1; subst. left. eauto.
    + apply inside_front in H1 as (nm & A & B & C). right. exists nm. repeat split; auto. exists n, d, name. auto.
  - intros [(name & H & ->)|(name & H & Hd & n & d & nm & H1 & H2 & H3)].
    + exists 0, p, name. repeat split; auto. constructor.
    + exists (S n), d, nm. repeat split; auto. apply inside_front. eauto.
Qed.

Lemma map_res_ok {A B} (f : A -> res B) l : forall r, map_res f l = Ok r <-> Forall2 (fun a b => f a = Ok b) l r.
Proof.
  induction l as [|a l IH]; cbn; intros r.
  - split; [intros [= <-]; constructor|inversion 1; reflexivity].
  - split.
    + intros H. apply bind_ok in H as (b & Hb & H). apply bind_ok in H as (bs & Hbs & [= <-]).
      constructor; [exact Hb|]. apply IH. exact Hbs.
    + inversion 1 as [|? b ? bs Hb Hbs]; subst. apply IH in Hbs. rewrite Hb. cbn [bind]. rewrite Hbs. reflexivity.
Qed.

Lemma map_res_raise {A B} (f : A -> res B) l x : map_res f l = Raise x -> exists a, In a l /\ f a = Raise x.
Proof.
  induction l as [|a l IH]; cbn; [discriminate|]. destruct (f a) as [b|e] eqn:E; cbn [bind].
  - destruct (map_res f l) eqn:E'; cbn [bind]; [discriminate|]. intros [= ->].
    destruct (IH eq_refl) as (y & ? & ?). eauto.
  - intros [= ->]. eauto.
Qed.

Lemma forall2_concat {A B} (R : A -> list B -> Prop) l r y : Forall2 R l r ->
  (In y (concat r) <-> exists a b, In a l /\ R a b /\ In y b /\ In b r).
Proof.
  induction 1 as [|a b l r Hab H IH]; cbn.
  - split; [intros []|intros (a & b & [] & _)].
  - rewrite in_app_iff, IH. split.
    + intros [Hy|(a' & b' & H1 & H2 & H3 & H4)]; [exists a, b; auto|exists a', b'; auto].
    + intros (a' & b' & [<-|H1] & H2 & H3 & [<-|H4]); auto.
      * right.
        assert (exists a0, In a0 l /\ R a0 b') as (a0 & ? & ?).
        { clear -H H4. induction H as [|x z l r Hx H IH]; [destruct H4|]. destruct H4 as [->|H4]; [exists x; cbn; auto|].
          destruct (IH H4) as (a0 & ? & ?). exists a0. cbn. auto. }
        exists a0, b'. auto.
      * right. exists a', b'. auto.
Qed.

Lemma folder_files fs n : forall p l, load_folder fs n p = Ok l ->
  forall q, In q l <-> below fs p q /\ fs_isfile fs q = true /\ ends_any folder_suffixes q = true.
Proof.
  induction n as [|n IH]; intros p l H q; [discriminate|]. cbn [load_folder] in H.
  apply bind_ok in H as (sub & Hs & [= <-]). apply map_res_ok in Hs.
  rewrite in_app_iff, !filter_In, in_map_iff, (forall2_concat _ _ _ _ Hs), below_front. split.
  - intros [[[(name & <- & Hn) Hf] He]|(d & b & Hd & Hl & Hq & _)].
    + rewrite entry_path_entry in *. split; [left; eauto|auto].
    + apply filter_In in Hd as [Hd Hdir]. apply in_map_iff in Hd as (name & <- & Hn).
      rewrite entry_path_entry in *. apply (IH _ _ Hl) in Hq as (Hb & Hf & He). split; [right; eauto|auto].
  - intros [[(name & Hn & ->)|(name & Hn & Hd & Hb)] [Hf He]].
    + left. split; [split|]; auto. exists name. rewrite entry_path_entry. auto.
    + right.
      assert (Hin : In (entry p name) (filter (fs_isdir fs) (map (entry_path p) (fs_list fs p)))).
      { apply filter_In. split; [|exact Hd]. apply in_map_iff. exists name. rewrite entry_path_entry. auto. }
      assert (exists b, In b sub /\ load_folder fs n (entry p name) = Ok b) as (b & Hb1 & Hb2).
      { clear -Hs Hin. induction Hs as [|x z l r Hx H IH]; [destruct Hin|].
        destruct Hin as [->|Hin]; [exists z; cbn; auto|]. destruct (IH Hin) as (b & ? & ?). exists b. cbn. auto. }
      exists (entry p name), b. repeat split; auto. apply (IH _ _ Hb2). auto.
Qed.

Lemma folder_ends fs n : forall p,
  (exists l, load_folder fs n p = Ok l) /\ (forall d, ~ inside fs p n d) \/
  load_folder fs n p = Raise OutOfFuel /\ (exists d, inside fs p n d).
Proof.
  induction n as [|n IH]; intros p.
  - right. split; [reflexivity|]. exists p. constructor.
  - cbn [load_folder].
    set (dirs := filter (fs_isdir fs) (map (entry_path p) (fs_list fs p))).
    assert (D : forall d, In d dirs <-> exists name, In name (fs_list fs p) /\ d = entry p name /\ fs_isdir fs d = true).
    { intros d. unfold dirs. rewrite filter_In, in_map_iff. split.
      - intros [(name & <- & Hn) Hd]. exists name. rewrite entry_path_entry in *. auto.
      - intros (name & Hn & -> & Hd). split; [exists name; rewrite entry_path_entry; auto|auto]. }
    destruct (map_res (load_folder fs n) dirs) as [sub|e] eqn:E.
    + left. cbn [bind]. split; [eauto|]. intros d Hd. apply inside_front in Hd as (name & Hn & Hd & Hi).
      apply map_res_ok in E.
      assert (Hin : In (entry p name) dirs) by (apply D; exists name; auto).
      assert (exists b, load_folder fs n (entry p name) = Ok b) as (b & Hb).
      { clear -E Hin. induction E as [|x z l r Hx H IH]; [destruct Hin|]. destruct Hin as [->|Hin]; [eauto|auto]. }
      destruct (IH (entry p name)) as [[_ Hno]|[Hr _]]; [exact (Hno _ Hi)|congruence].
    + right. cbn [bind]. apply map_res_raise in E as (d & Hd & Hr).
      destruct (IH d) as [[(l & Hl) _]|[Hr' (d' & Hi)]]; [congruence|].
      split; [congruence|]. apply D in Hd as (name & Hn & -> & Hdir). exists d'. apply inside_front. eauto.
Qed.

(** No file is listed twice. *)
Lemma folder_prefix fs n p l q : load_folder fs n p = Ok l -> In q l -> exists r, q = slashed p ++ ch "/" :: r.
Proof.
  intros H Hq. apply (folder_files _ _ _ _ H) in Hq as ((m & d & name & Hi & Hn & ->) & _). clear H.
  assert (exists r, slashed d ++ [ch "/"] = (slashed p ++ [ch "/"]) ++ r) as (r & Hr).
  { clear Hn name. induction Hi as [|m d name Hi (r & IH) Hn Hd].
    - exists []. rewrite app_nil_r. reflexivity.
    - rewrite slashed_entry. unfold entry. exists (r ++ name ++ [ch "/"]).
      rewrite app_assoc, <- IH, <- !app_assoc. reflexivity. }
  unfold entry. exists (r ++ name).
  change (slashed d ++ ch "/" :: name) with (slashed d ++ [ch "/"] ++ name). rewrite app_assoc, Hr, <- !app_assoc.
  reflexivity.
Qed.

Lemma no_slash_split (a b r s : str) : ~ In (ch "/") a -> ~ In (ch "/") b ->
  a ++ ch "/" :: r = b ++ ch "/" :: s -> a = b /\ r = s.
Proof.
  revert b. induction a as [|x a IH]; intros b Ha Hb E; destruct b as [|y b]; cbn in E.
  - injection E as ->. auto.
  - injection E as E _. exfalso. apply Hb. left. exact (eq_sym E).
  - injection E as E _. exfalso. apply Ha. left. exact E.
  - injection E as -> E. destruct (IH b) as [-> ->]; auto; intros H; [apply Ha|apply Hb]; cbn; auto.
Qed.

Lemma NoDup_append {A} (a b : list A) : NoDup a -> NoDup b -> (forall x, In x a -> ~ In x b) -> NoDup (a ++ b).
Proof.
  induction 1 as [|x a Hx Ha IH]; cbn; intros Hb Hd; [exact Hb|]. constructor.
  - rewrite in_app_iff. intros [H|H]; [contradiction|]. apply (Hd x); cbn; auto.
  - apply IH; [exact Hb|]. intros y Hy. apply Hd. cbn. auto.
Qed.

Lemma folder_once fs n : plain_names fs -> forall p l, load_folder fs n p = Ok l -> NoDup l.
Proof.
  intros Hp. induction n as [|n IH]; intros p l H; [discriminate|]. cbn [load_folder] in H.
  apply bind_ok in H as (sub & Hs & [= <-]). apply map_res_ok in Hs.
  destruct (Hp p) as [Hnd Hns]. set (names := fs_list fs p) in *. clearbody names.
  assert (Inj : forall a b : str, entry p a = entry p b -> a = b).
  { intros a b E. unfold entry in E. apply app_inv_head in E. congruence. }
  apply NoDup_append.
  - apply NoDup_filter, NoDup_filter. apply FinFun.Injective_map_NoDup; [|exact Hnd].
    intros a b. rewrite !entry_path_entry. apply Inj.
  - set (l := filter (fs_isdir fs) (map (entry_path p) names)) in Hs.
    assert (Hl : NoDup l /\ forall d, In d l -> exists name, d = entry p name /\ ~ In (ch "/") name).
    { split.
      - apply NoDup_filter. apply FinFun.Injective_map_NoDup; [|exact Hnd].
        intros a b. rewrite !entry_path_entry. apply Inj.
      - intros d Hd. apply filter_In in Hd as [Hd _]. apply in_map_iff in Hd as (name & <- & Hn).
        exists name. rewrite entry_path_entry. auto. }
    clearbody l. destruct Hl as [Hl1 Hl2]. induction Hs as [|d b l sub Hdb Hs IHs]; [constructor|]. cbn [concat].
    inversion Hl1; subst. apply NoDup_append.
    + eapply IH, Hdb.
    + apply IHs; auto. intros d' Hd'. apply Hl2. cbn. auto.
    + intros q Hq Hq'. apply (forall2_concat _ _ _ _ Hs) in Hq' as (d' & b' & Hd' & Hb' & Hq' & _).
      apply (folder_prefix _ _ _ _ _ Hdb) in Hq as (r & ->).
      apply (folder_prefix _ _ _ _ _ Hb') in Hq' as (r' & E).
      destruct (Hl2 d) as (n1 & -> & N1); [cbn; auto|]. destruct (Hl2 d') as (n2 & -> & N2); [cbn; auto|].
      rewrite !slashed_entry in E. unfold entry in E. rewrite <- !app_assoc in E. apply app_inv_head in E.
      cbn [app] in E. injection E as E. apply no_slash_split in E as [-> _]; auto.
  - intros q Hq Hq'. apply filter_In in Hq as [Hq _]. apply filter_In in Hq as [Hq _].
    apply in_map_iff in Hq as (name & <- & Hn). rewrite entry_path_entry in Hq'.
    apply (forall2_concat _ _ _ _ Hs) in Hq' as (d' & b' & Hd' & Hb' & Hq' & _).
    apply (folder_prefix _ _ _ _ _ Hb') in Hq' as (r' & E). apply filter_In in Hd' as [Hd' _].
    apply in_map_iff in Hd' as (n2 & <- & N2). rewrite entry_path_entry, slashed_entry in E.
    unfold entry in E. rewrite <- !app_assoc in E. apply app_inv_head in E. cbn [app] in E. injection E as E.
    apply (Hns name Hn). rewrite E. apply in_or_app. right. left. reflexivity.
Qed.
