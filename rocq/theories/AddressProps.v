(** C36: the cache file name of every remote URI, and exactly which remote URIs share one; C35: exactly
    which addresses the cache of documents takes for the same document. *)
From Verif Require Import Base Regex QNameModel CtxModel DtsModel DtsProofs.

(** ** What is said, without the functions of the model *)

(** A letter or a digit of ASCII. *)
Definition letter_or_digit (c : N) : Prop :=
  (ch "0" <= c <= ch "9")%N \/ (ch "A" <= c <= ch "Z")%N \/ (ch "a" <= c <= ch "z")%N.

(** The file ending of a URI, or of a URI before a final line feed. *)
Definition ending (uri e : str) : Prop :=
  e <> [] /\ (forall c, In c e -> letter_or_digit c) /\
  exists x, uri = x ++ ch "." :: e \/ uri = x ++ ch "." :: e ++ [10%N].
Definition no_ending (uri : str) : Prop := forall e, ~ ending uri e.

Definition occurs (pat s : str) : Prop := exists a b, s = a ++ pat ++ b.

(** [s] cut at every "www.". *)
Definition pieces_of (s : str) (ps : list str) : Prop :=
  ps <> [] /\ s = join (u "www.") ps /\ forall p, In p ps -> ~ occurs (u "www.") p.

(** One character of a file name: the five become underscores. *)
Inductive written_as : N -> N -> Prop :=
| mark c : In c [ch "/"; ch ":"; ch "?"; ch "."; ch "\"] -> written_as c (ch "_")
| other c : ~ In c [ch "/"; ch ":"; ch "?"; ch "."; ch "\"] -> written_as c c.

Definition without_stops (s : str) : str := filter (fun c => negb (N.eqb c (ch "."))) s.

(** The file name of [scheme ++ rest]. *)
Inductive file_name (uri rest : str) : str -> Prop :=
| with_ending e ps n : ending uri e -> pieces_of rest ps -> Forall2 written_as (concat ps) n ->
    file_name uri rest (n ++ ch "." :: e)
| without_ending n : no_ending uri ->
    Forall2 written_as (without_stops rest) n -> file_name uri rest n.

(** A remote URI in which no scheme occurs a second time, also not when the full stops are left out, and in
    which the ending does not occur behind two full stops. *)
Definition remote (uri rest : str) : Prop :=
  (uri = u "http://" ++ rest \/ uri = u "https://" ++ rest) /\
  (forall r scheme, In r [rest; without_stops rest] -> In scheme [u "http://"; u "https://"] -> ~ occurs scheme r) /\
  (forall e, ending uri e -> ~ occurs (u ".." ++ e) uri).

(** ** Proofs *)

Lemma occurs_contains pat s : contains pat s = true <-> occurs pat s.
Proof. apply contains_spec. Qed.
Lemma occurs_not pat s : contains pat s = false <-> ~ occurs pat s.
Proof. rewrite <- occurs_contains. destruct (contains pat s); intuition congruence. Qed.

Lemma alnum_letter c : is_alnum c = true <-> letter_or_digit c.
Proof.
  unfold is_alnum, letter_or_digit. rewrite !Bool.orb_true_iff, !Bool.andb_true_iff, !N.leb_le.
  change (ch "0") with 48%N. change (ch "9") with 57%N. change (ch "A") with 65%N. change (ch "Z") with 90%N.
  change (ch "a") with 97%N. change (ch "z") with 122%N. tauto.
Qed.

Lemma split_last c s : (~ In c s /\ split_char c s = [s]) \/
  exists x, s = x ++ c :: last (split_char c s) [] /\ ~ In c (last (split_char c s) []) /\ 1 < length (split_char c s).
Proof.
  induction s as [|a s IH]; [left; split; [intros []|reflexivity]|].
  cbn [split_char]. destruct (N.eqb_spec a c) as [->|Hn].
  - right. destruct IH as [[H E]|(x & E & H & L)].
    + rewrite E. exists []. cbn. auto.
    + exists (c :: x). destruct (split_char c s) as [|q l] eqn:Eq; [cbn in L; lia|].
      change (last ([] :: q :: l) []) with (last (q :: l) []). split; [cbn [app]; f_equal; exact E|].
      split; [exact H|cbn [length] in *; lia].
  - destruct IH as [[H E]|(x & E & H & L)].
    + left. rewrite E. split; [|reflexivity]. intros [F|F]; [congruence|auto].
    + right. destruct (split_char c s) as [|q l] eqn:Eq; [cbn in L; lia|]. destruct l as [|q' l]; [cbn in L; lia|].
      change (last ((a :: q) :: q' :: l) []) with (last (q' :: l) []).
      change (last (q :: q' :: l) []) with (last (q' :: l) []) in *.
      exists (a :: x). split; [cbn [app]; f_equal; exact E|]. split; [exact H|cbn [length] in *; lia].
Qed.

Lemma chop_cases uri : (exists x, uri = x ++ [10%N] /\ chop_newline uri = x) \/
  ((forall x, uri <> x ++ [10%N]) /\ chop_newline uri = uri).
Proof.
  unfold chop_newline. destruct (rev uri) as [|c r] eqn:E.
  - right. split; [|reflexivity]. intros x ->. rewrite rev_app_distr in E. discriminate.
  - assert (Eu : uri = rev r ++ [c]) by (rewrite <- (rev_involutive uri), E; reflexivity).
    destruct (N.eqb_spec c 10) as [->|Hn].
    + left. exists (rev r). auto.
    + right. split; [|reflexivity]. intros x Ex. rewrite Ex in Eu. apply app_inj_tail in Eu as [_ Eu]. congruence.
Qed.

Lemma letters_no e c : (forall c, In c e -> letter_or_digit c) -> is_alnum c = false -> ~ In c e.
Proof. intros H Hc F. apply H, alnum_letter in F. congruence. Qed.

Lemma last_sep' (c : N) (a b e f : str) : ~ In c e -> ~ In c f -> a ++ c :: e = b ++ c :: f -> a = b /\ e = f.
Proof.
  intros He Hf E. apply (f_equal (@rev N)) in E. rewrite !rev_app_distr in E. cbn [rev] in E. rewrite <- !app_assoc in E.
  cbn [app] in E. apply last_sep in E as [E1 E2].
  - apply (f_equal (@rev N)) in E1. apply (f_equal (@rev N)) in E2. rewrite !rev_involutive in *. auto.
  - rewrite <- in_rev. exact He.
  - rewrite <- in_rev. exact Hf.
Qed.

(** An ending of the URI is one of the URI without a final line feed. *)
Lemma ending_chop uri e : ending uri e <->
  e <> [] /\ (forall c, In c e -> letter_or_digit c) /\ exists x, chop_newline uri = x ++ ch "." :: e.
Proof.
  split.
  - intros (Hn & Hl & x & H). split; [exact Hn|]. split; [exact Hl|].
    destruct (chop_cases uri) as [(y & -> & ->)|[Hno ->]].
    + destruct H as [H|H].
      * exfalso. destruct (exists_last Hn) as (e' & z & Ee). rewrite Ee in H, Hl.
        rewrite app_comm_cons, app_assoc in H. apply app_inj_tail in H as [_ <-].
        assert (F : is_alnum 10 = true) by (apply alnum_letter, Hl, in_or_app; right; left; reflexivity).
        vm_compute in F. discriminate.
      * exists x. rewrite app_comm_cons, app_assoc in H. apply app_inj_tail in H as [H _]. exact H.
    + exists x. destruct H as [H|H]; [exact H|]. exfalso. apply (Hno (x ++ ch "." :: e)). rewrite H, <- app_assoc. reflexivity.
  - intros (Hn & Hl & x & H). split; [exact Hn|]. split; [exact Hl|]. exists x.
    destruct (chop_cases uri) as [(y & Ey & Ec)|[_ Ec]]; rewrite Ec in H.
    + right. rewrite Ey, H, <- app_assoc. reflexivity.
    + left. exact H.
Qed.

Lemma format_cases uri : (exists e, ending uri e /\ file_format uri = ch "." :: e) \/
  (no_ending uri /\ file_format uri = []).
Proof.
  unfold file_format. cbv zeta. destruct (split_last (ch ".") (chop_newline uri)) as [[H E]|(x & E & H & L)].
  - right. split; [|rewrite E; reflexivity]. intros e (_ & _ & x & He)%ending_chop. apply H. rewrite He.
    apply in_or_app. right. left. reflexivity.
  - set (e := last (split_char (ch ".") (chop_newline uri)) []) in *. apply Nat.ltb_lt in L. rewrite L. cbn [andb].
    destruct ((0 <? length e) && forallb is_alnum e) eqn:Eb.
    + left. exists e. split; [|reflexivity]. apply andb_prop in Eb as [E1 E2]. apply ending_chop.
      split; [intros F; rewrite F in E1; discriminate|].
      rewrite forallb_forall in E2. split; [intros c Hc; apply alnum_letter, E2, Hc|]. exists x. exact E.
    + right. split; [|reflexivity]. intros f (Hn & Hl & y & Hf)%ending_chop.
      assert (Nd : ~ In (ch ".") f) by (apply letters_no; [exact Hl|reflexivity]).
      rewrite Hf in E. apply last_sep' in E as [_ <-]; [|exact Nd|exact H].
      apply Bool.andb_false_iff in Eb as [Eb|Eb].
      * destruct f; [congruence|discriminate].
      * assert (F : forallb is_alnum f = true) by (apply forallb_forall; intros c Hc; apply alnum_letter, Hl, Hc). congruence.
Qed.

Lemma ending_unique uri e f : ending uri e -> ending uri f -> e = f.
Proof.
  intros (He & Hl & x & H)%ending_chop (_ & Hl' & y & H')%ending_chop. rewrite H in H'.
  apply last_sep' in H' as [_ H']; [exact H'| |]; apply letters_no; auto.
Qed.

Lemma flat_written c d : flat c = d <-> written_as c d.
Proof.
  assert (F : written_as c (flat c)).
  { unfold flat.
    destruct (N.eqb_spec c (ch "/")) as [->|N1]; [apply mark; cbn; tauto|].
    destruct (N.eqb_spec c (ch ":")) as [->|N2]; [apply mark; cbn; tauto|].
    destruct (N.eqb_spec c (ch "?")) as [->|N3]; [apply mark; cbn; tauto|].
    destruct (N.eqb_spec c (ch ".")) as [->|N4]; [apply mark; cbn; tauto|].
    destruct (N.eqb_spec c backslash) as [->|N5]; [apply mark; cbn; tauto|].
    cbn [orb]. apply other. intros [H|[H|[H|[H|[H|[]]]]]]; try congruence. apply N5. rewrite <- H. reflexivity. }
  split; [intros <-; exact F|]. intros H. inversion F; inversion H; subst; congruence || contradiction.
Qed.

Lemma flat_all s n : map flat s = n <-> Forall2 written_as s n.
Proof.
  revert n. induction s as [|c s IH]; intros n; cbn [map].
  - split; [intros <-; constructor|]. intros H. inversion H. reflexivity.
  - split.
    + intros <-. constructor; [apply flat_written; reflexivity|apply IH; reflexivity].
    + intros H. inversion H as [|? d ? m H1 H2]; subst. apply flat_written in H1. apply IH in H2. congruence.
Qed.

Lemma www : u "www." = [119; 119; 119; 46]%N.
Proof. vm_compute. reflexivity. Qed.

(** A "www." behind a text without one is the first. *)
Lemma www_first p rest : ~ occurs (u "www.") p -> p <> [] -> starts_with (u "www.") (p ++ u "www." ++ rest) = false.
Proof.
  intros Hp Hn. destruct (starts_with (u "www.") (p ++ u "www." ++ rest)) eqn:E; [|reflexivity]. exfalso.
  rewrite www in *.
  destruct p as [|a p]; [congruence|]. destruct p as [|b p].
  { cbn in E. destruct a as [|a]; [discriminate|]. destruct (Pos.eqb 119 a); discriminate. }
  destruct p as [|c p].
  { cbn [app starts_with] in E. destruct (N.eqb 119 a); [|discriminate]. destruct (N.eqb 119 b); [|discriminate]. cbn in E. discriminate. }
  destruct p as [|d p].
  { cbn [app starts_with] in E. destruct (N.eqb 119 a); [|discriminate]. destruct (N.eqb 119 b); [|discriminate].
    destruct (N.eqb 119 c); [|discriminate]. cbn in E. discriminate. }
  cbn [app starts_with] in E. destruct (N.eqb_spec 119 a) as [<-|]; [|discriminate]. destruct (N.eqb_spec 119 b) as [<-|]; [|discriminate].
  destruct (N.eqb_spec 119 c) as [<-|]; [|discriminate]. destruct (N.eqb_spec 46 d) as [<-|]; [|discriminate].
  apply Hp. exists [], p. reflexivity.
Qed.

Lemma occurs_tail pat c s : ~ occurs pat (c :: s) -> ~ occurs pat s.
Proof. intros H (a & b & ->). apply H. exists (c :: a), b. reflexivity. Qed.

Lemma remove_piece p rest : ~ occurs (u "www.") p ->
  remove_all (u "www.") (p ++ u "www." ++ rest) = p ++ remove_all (u "www.") rest.
Proof.
  unfold remove_all. induction p as [|c p IH]; intros Hp.
  - rewrite www. reflexivity.
  - cbn [app remove_from]. replace (c :: p ++ u "www." ++ rest) with ((c :: p) ++ u "www." ++ rest) by reflexivity.
    rewrite (www_first (c :: p) rest Hp) by discriminate. f_equal. apply IH. eapply occurs_tail, Hp.
Qed.

Lemma remove_pieces ps : ps <> [] -> (forall p, In p ps -> ~ occurs (u "www.") p) ->
  remove_all (u "www.") (join (u "www.") ps) = concat ps.
Proof.
  induction ps as [|p ps IH]; intros Hn Hp; [congruence|]. destruct ps as [|q ps].
  - cbn [join concat]. rewrite app_nil_r. apply remove_none; [rewrite www; discriminate|]. apply occurs_not, Hp. left. reflexivity.
  - change (join (u "www.") (p :: q :: ps)) with (p ++ u "www." ++ join (u "www.") (q :: ps)).
    rewrite remove_piece by (apply Hp; left; reflexivity). cbn [concat]. f_equal. apply IH; [discriminate|].
    intros x Hx. apply Hp. right. exact Hx.
Qed.

(** The leftmost occurrence. *)
Lemma www_leftmost s : occurs (u "www.") s -> exists a b, s = a ++ u "www." ++ b /\ ~ occurs (u "www.") a.
Proof.
  assert (G : forall n a b, length a <= n -> s = a ++ u "www." ++ b -> exists a b, s = a ++ u "www." ++ b /\ ~ occurs (u "www.") a).
  { induction n as [|n IH]; intros a b Hl E.
    - exists a, b. split; [exact E|]. intros (x & y & F). apply (f_equal (@length N)) in F. rewrite !app_length, www in F. cbn in F. lia.
    - destruct (contains (u "www.") a) eqn:Ec.
      + apply occurs_contains in Ec as (x & y & F). apply (IH x (y ++ u "www." ++ b)).
        * apply (f_equal (@length N)) in F. rewrite !app_length, www in F. cbn in F. lia.
        * rewrite E, F, <- !app_assoc. reflexivity.
      + exists a, b. split; [exact E|]. apply occurs_not, Ec. }
  intros (a & b & E). apply (G (length a) a b); auto.
Qed.

Lemma pieces_exist s : exists ps, pieces_of s ps.
Proof.
  assert (G : forall n s, length s <= n -> exists ps, pieces_of s ps).
  { induction n as [|n IH]; intros t Hl.
    - exists [t]. split; [discriminate|]. split; [reflexivity|]. intros p [<-|[]] (x & y & F).
      apply (f_equal (@length N)) in F. rewrite !app_length, www in F. cbn in F. lia.
    - destruct (contains (u "www.") t) eqn:Ec.
      + apply occurs_contains, www_leftmost in Ec as (a & b & E & Ha). destruct (IH b) as (ps & Hn & Ej & Hp).
        * apply (f_equal (@length N)) in E. rewrite !app_length, www in E. cbn in E. lia.
        * exists (a :: ps). split; [discriminate|]. split.
          -- destruct ps as [|q ps]; [congruence|]. rewrite E, Ej. reflexivity.
          -- intros p [<-|H]; [exact Ha|apply Hp, H].
      + exists [t]. split; [discriminate|]. split; [reflexivity|]. intros p [<-|[]]. apply occurs_not, Ec. }
  apply (G (length s)). auto.
Qed.

Lemma remove_dot s : remove_all [ch "."] s = without_stops s.
Proof.
  unfold remove_all, without_stops. induction s as [|c s IH]; [reflexivity|]. cbn [remove_from starts_with filter].
  rewrite N.eqb_sym. destruct (N.eqb c (ch ".")); cbn [negb andb length Nat.sub]; [exact IH|f_equal; exact IH].
Qed.

Lemma scheme_off uri rest : (uri = u "http://" ++ rest \/ uri = u "https://" ++ rest) ->
  ~ occurs (u "http://") rest -> ~ occurs (u "https://") rest ->
  remove_all (u "https://") (remove_all (u "http://") uri) = rest.
Proof.
  intros H H1%occurs_not H2%occurs_not.
  assert (N1 : remove_all (u "http://") rest = rest) by (apply remove_none; [vm_compute; discriminate|exact H1]).
  assert (N2 : remove_all (u "https://") rest = rest) by (apply remove_none; [vm_compute; discriminate|exact H2]).
  destruct H as [-> | ->].
  - assert (E : remove_all (u "http://") (u "http://" ++ rest) = remove_all (u "http://") rest) by (clear; reflexivity).
    rewrite E, N1. exact N2.
  - assert (E : remove_all (u "http://") (u "https://" ++ rest) = u "https://" ++ remove_all (u "http://") rest) by (clear; reflexivity).
    rewrite E, N1.
    assert (E2 : remove_all (u "https://") (u "https://" ++ rest) = remove_all (u "https://") rest) by (clear; reflexivity).
    rewrite E2. exact N2.
Qed.

Lemma names_of uri rest : remote uri rest -> file_name uri rest (uri_to_filename uri).
Proof.
  intros (Hu & Hs & He).
  assert (H1 : forall r, In r [rest; without_stops rest] -> ~ occurs (u "http://") r) by (intros r Hr; apply Hs; [exact Hr|left; reflexivity]).
  assert (H2 : forall r, In r [rest; without_stops rest] -> ~ occurs (u "https://") r) by (intros r Hr; apply Hs; [exact Hr|right; left; reflexivity]).
  assert (HT : starts_with (u "http") uri = true) by (destruct Hu as [-> | ->]; reflexivity).
  unfold uri_to_filename. rewrite HT. cbn [negb]. cbv zeta. destruct (format_cases uri) as [(e & Hend & Ef)|[Hno Ef]]; rewrite Ef.
  - assert (R : remove_all (ch "." :: ch "." :: e) uri = uri).
    { apply remove_none; [discriminate|]. apply occurs_not. exact (He e Hend). }
    rewrite R.
    assert (CH : contains (u "http") uri = true).
    { apply contains_spec. apply prefix_spec in HT as (r & ->). exists [], r. reflexivity. }
    rewrite CH, (scheme_off uri rest Hu (H1 _ (or_introl eq_refl)) (H2 _ (or_introl eq_refl))), subst_chain.
    destruct (pieces_exist rest) as (ps & Hp). apply (with_ending _ _ e ps); [exact Hend|exact Hp|].
    destruct Hp as (Hn & -> & Hp). rewrite remove_pieces by assumption. apply flat_all. reflexivity.
  - rewrite remove_dot, app_nil_r.
    assert (Hu' : without_stops uri = u "http://" ++ without_stops rest \/ without_stops uri = u "https://" ++ without_stops rest)
      by (destruct Hu as [-> | ->]; [left|right]; clear; reflexivity).
    set (v := without_stops uri) in *.
    assert (CH : contains (u "http") v = true).
    { apply contains_spec. destruct Hu' as [-> | ->]; [exists [], (u "://" ++ without_stops rest)|exists [], (u "s://" ++ without_stops rest)]; reflexivity. }
    rewrite CH, (scheme_off v (without_stops rest) Hu' (H1 _ (or_intror (or_introl eq_refl))) (H2 _ (or_intror (or_introl eq_refl)))), subst_chain.
    apply without_ending; [exact Hno|]. apply flat_all. f_equal. symmetry. apply remove_none; [rewrite www; discriminate|].
    apply (contains_without _ _ (ch ".")); [rewrite www; cbn; tauto|]. unfold without_stops. rewrite filter_In. intros [_ F].
    rewrite N.eqb_refl in F. discriminate.
Qed.

Lemma pieces_concat s ps qs : pieces_of s ps -> pieces_of s qs -> concat ps = concat qs.
Proof. intros (Hn & E & Hp) (Hn' & E' & Hp'). rewrite <- (remove_pieces ps Hn Hp), <- (remove_pieces qs Hn' Hp'), <- E, <- E'. reflexivity. Qed.

Lemma written_no_stop s n : Forall2 written_as s n -> ~ In (ch ".") n.
Proof. intros H%flat_all. rewrite <- H. apply flat_no_dot. Qed.
Lemma written_unique s n m : Forall2 written_as s n -> Forall2 written_as s m -> n = m.
Proof. intros H%flat_all G%flat_all. congruence. Qed.

(** ** C36 *)

(** The name under which a remote file is kept: the URI without its scheme and without each "www.", with
    underscores for the five marks, and the ending once more; without an ending the full stops go as well. *)
Theorem C36_remote_partial uri rest : remote uri rest ->
  file_name uri rest (uri_to_filename uri) /\ forall n, file_name uri rest n -> n = uri_to_filename uri.
Proof.
  intros H. pose proof (names_of uri rest H) as F. split; [exact F|]. generalize dependent (uri_to_filename uri).
  intros m F n G. destruct F as [e ps n1 H1 H2 H3|n1 H1 H2]; destruct G as [f qs n2 K1 K2 K3|n2 K1 K2].
  - rewrite (ending_unique _ _ _ H1 K1). rewrite (pieces_concat _ _ _ H2 K2) in H3. rewrite (written_unique _ _ _ H3 K3). reflexivity.
  - exfalso. exact (K1 _ H1).
  - exfalso. exact (H1 _ K1).
  - exact (written_unique _ _ _ K2 H2).
Qed.

(** Exactly which remote files share a name: those with the same ending that differ only in the scheme, in
    "www." and in which of the marks and the underscore they have; and those without an ending that differ
    only so or in full stops. *)
Theorem C36_shared_partial uri rest uri' rest' : remote uri rest -> remote uri' rest' ->
  (uri_to_filename uri = uri_to_filename uri' <->
   (exists e ps qs n, ending uri e /\ ending uri' e /\ pieces_of rest ps /\ pieces_of rest' qs /\
      Forall2 written_as (concat ps) n /\ Forall2 written_as (concat qs) n) \/
   (no_ending uri /\ no_ending uri' /\
      exists n, Forall2 written_as (without_stops rest) n /\ Forall2 written_as (without_stops rest') n)).
Proof.
  intros H H'. split.
  - intros E. pose proof (names_of uri rest H) as F. pose proof (names_of uri' rest' H') as G. rewrite <- E in G.
    generalize dependent (uri_to_filename uri). intros m _ F G.
    inversion F as [e ps n1 H1 H2 H3 Em|n1 H1 H2 Em]; inversion G as [f qs n2 K1 K2 K3 Em'|n2 K1 K2 Em']; subst.
    + left. apply last_sep in Em' as [-> ->]; [|eapply written_no_stop; eassumption|eapply written_no_stop; eassumption].
      exists e, ps, qs, n1. auto 7.
    + exfalso. apply (written_no_stop _ _ K2). apply in_or_app. right. left. reflexivity.
    + exfalso. apply (written_no_stop _ _ H2). apply in_or_app. right. left. reflexivity.
    + right. split; [exact H1|]. split; [exact K1|]. exists m. auto.
  - intros [(e & ps & qs & n & H1 & H2 & H3 & H4 & H5 & H6)|(H1 & H2 & n & H3 & H4)].
    + rewrite <- (proj2 (C36_remote_partial uri rest H) _ (with_ending _ _ e ps n H1 H3 H5)).
      rewrite <- (proj2 (C36_remote_partial uri' rest' H') _ (with_ending _ _ e qs n H2 H4 H6)). reflexivity.
    + rewrite <- (proj2 (C36_remote_partial uri rest H) _ (without_ending _ _ n H1 H3)).
      rewrite <- (proj2 (C36_remote_partial uri' rest' H') _ (without_ending _ _ n H2 H4)). reflexivity.
Qed.

(** Deciding [remote], for the samples. *)
Definition remote_b (uri rest : str) : bool :=
  (str_eqb uri (u "http://" ++ rest) || str_eqb uri (u "https://" ++ rest)) &&
  forallb (fun r => negb (contains (u "http://") r) && negb (contains (u "https://") r)) [rest; without_stops rest] &&
  negb (contains (u "..") uri).
Lemma remote_b_sound uri rest : remote_b uri rest = true -> remote uri rest.
Proof.
  unfold remote_b. intros H. apply andb_prop in H as [H H3]. apply andb_prop in H as [H1 H2]. rewrite forallb_forall in H2.
  split; [apply Bool.orb_true_iff in H1 as [H1|H1]; [left|right]; destruct (str_eqb_spec uri (u "http://" ++ rest)), (str_eqb_spec uri (u "https://" ++ rest)); congruence|]. split.
  - intros r scheme Hr Hs. specialize (H2 r Hr). apply andb_prop in H2 as [A B]. apply Bool.negb_true_iff in A, B.
    destruct Hs as [<-|[<-|[]]]; apply occurs_not; assumption.
  - intros e _ (a & b & E). apply Bool.negb_true_iff in H3. apply occurs_not in H3. apply H3. exists a, (e ++ b). rewrite E, <- app_assoc. reflexivity.
Qed.

Definition s_rest : str := u "www.xbrl.org:8080/2003/core.xsd".
Example C36_remote_case : remote (u "https://" ++ s_rest) s_rest /\
  uri_to_filename (u "https://" ++ s_rest) = u "xbrl_org_8080_2003_core_xsd.xsd" /\
  remote (u "http://" ++ u "xbrl.org/2003/instance") (u "xbrl.org/2003/instance") /\
  uri_to_filename (u "http://xbrl.org/2003/instance") = u "xbrlorg_2003_instance".
Proof.
  split; [apply remote_b_sound; vm_compute; reflexivity|]. split; [vm_compute; reflexivity|].
  split; [apply remote_b_sound; vm_compute; reflexivity|vm_compute; reflexivity].
Qed.

(** Two that share a name, and two that do not. *)
Example C36_shared_case :
  remote (u "http://a.org/x/c.xsd") (u "a.org/x/c.xsd") /\ remote (u "https://www.a.org/x_c.xsd") (u "www.a.org/x_c.xsd") /\
  uri_to_filename (u "http://a.org/x/c.xsd") = uri_to_filename (u "https://www.a.org/x_c.xsd") /\
  remote (u "http://a.org/x/c.xml") (u "a.org/x/c.xml") /\
  uri_to_filename (u "http://a.org/x/c.xsd") <> uri_to_filename (u "http://a.org/x/c.xml").
Proof.
  split; [apply remote_b_sound; vm_compute; reflexivity|]. split; [apply remote_b_sound; vm_compute; reflexivity|].
  split; [vm_compute; reflexivity|]. split; [apply remote_b_sound; vm_compute; reflexivity|vm_compute; discriminate].
Qed.

(** Without an ending the full stops are left out: two hosts share a name. *)
Theorem C36_hosts_refuted : uri_to_filename (u "http://ab.org/x") = uri_to_filename (u "http://a.borg/x").
Proof. vm_compute. reflexivity. Qed.

(** ** C35: which addresses are one document *)

(** The same path, with slashes and backslashes for each other. *)
Definition slash (c : N) : Prop := c = ch "/" \/ c = ch "\".
Definition same_path (v x : str) : Prop := Forall2 (fun c d => c = d \/ slash c /\ slash d) v x.
(** The document is fetched from the network. *)
Definition from_network (v : str) : Prop := exists rest, v = u "http" ++ rest.

Lemma network_http v : is_http v = true <-> from_network v.
Proof. apply prefix_spec. Qed.

Lemma subst_slash c : (if N.eqb c backslash then ch "/" else c) = ch "/" <-> slash c.
Proof.
  unfold slash. change (ch "\") with backslash. destruct (N.eqb_spec c backslash) as [->|H]; [tauto|]. split; [auto|]. intros [E|E]; congruence.
Qed.

Lemma subst_same v x : subst_char backslash (ch "/") v = subst_char backslash (ch "/") x <-> same_path v x.
Proof.
  unfold subst_char, same_path. revert x. induction v as [|c v IH]; intros [|d x]; cbn [map].
  - split; [constructor|reflexivity].
  - split; [discriminate|]. intros H. inversion H.
  - split; [discriminate|]. intros H. inversion H.
  - split.
    + intros E. injection E as E1 E2. constructor; [|apply IH, E2].
      destruct (N.eqb_spec c backslash) as [Hc|Hc].
      * right. split; [right; exact Hc|]. apply subst_slash. congruence.
      * destruct (N.eqb_spec d backslash) as [Hd|Hd]; [|left; congruence]. right. split; [left; exact E1|right; exact Hd].
    + intros H. inversion H as [|? ? ? ? H1 H2]; subst. f_equal; [|apply IH, H2].
      destruct H1 as [->|[H1 H3]]; [reflexivity|]. apply subst_slash in H1, H3. congruence.
Qed.

Lemma subst_http v : is_http (subst_char backslash (ch "/") v) = true -> is_http v = true.
Proof.
  unfold is_http. intros H. apply prefix_spec in H as (r & E).
  change (u "http" ++ r) with ([104; 116; 116; 112]%N ++ r) in E. unfold subst_char in E.
  assert (K : forall c n, (if N.eqb c backslash then ch "/" else c) = n -> n <> ch "/" -> c = n).
  { intros c n. destruct (N.eqb c backslash); congruence. }
  destruct v as [|a [|b [|c [|d v]]]]; cbn [map app] in E; try discriminate.
  injection E as E1 E2 E3 E4 _.
  apply K in E1; [|vm_compute; discriminate]. apply K in E2; [|vm_compute; discriminate].
  apply K in E3; [|vm_compute; discriminate]. apply K in E4; [|vm_compute; discriminate]. subst. reflexivity.
Qed.

(** A document that was added is found under the same address; under another only if both are local paths
    that differ in slashes and backslashes. *)
Theorem C35_addresses {tree} (s : cache tree) v x t :
  has_etree (add_etree s v t) x = true <->
  has_etree s x = true \/ v = x \/ (~ from_network v /\ ~ from_network x /\ same_path v x).
Proof.
  assert (G : normalize_uri v = normalize_uri x <-> v = x \/ (~ from_network v /\ ~ from_network x /\ same_path v x)).
  { rewrite <- !network_http. unfold normalize_uri. destruct (is_http v) eqn:Ev, (is_http x) eqn:Ex.
    - split; [auto|]. intros [H|(H & _)]; [exact H|congruence].
    - split; [|intros [->|(H & _)]; congruence]. intros H. rewrite H in Ev. apply subst_http in Ev. congruence.
    - split; [|intros [->|(_ & H & _)]; congruence]. intros H. rewrite <- H in Ex. apply subst_http in Ex. congruence.
    - rewrite subst_same. split; [intros H; right; repeat split; try congruence; exact H|]. intros [->|(_ & _ & H)]; [|exact H].
      apply subst_same. reflexivity. }
  unfold has_etree, add_etree. cbn [trees]. rewrite <- G. unfold dict_mem.
  destruct (str_eqb_spec (normalize_uri v) (normalize_uri x)) as [E|E].
  - rewrite <- E, (dict_get_set_same _ str_eqb_spec). split; [auto|reflexivity].
  - rewrite (dict_get_set_other _ str_eqb_spec) by congruence. split; [auto|]. intros [H|H]; [exact H|congruence].
Qed.

Example C35_addresses_case : same_path (u "a\b.xsd") (u "a/b.xsd") /\ ~ from_network (u "a/b.xsd") /\
  has_etree (add_etree (Cache [] []) (u "a\b.xsd") tt) (u "a/b.xsd") = true /\
  has_etree (add_etree (Cache [] []) (u "http://a\b.xsd") tt) (u "http://a/b.xsd") = false.
Proof.
  split; [apply subst_same; vm_compute; reflexivity|]. split; [|split; vm_compute; reflexivity].
  intros H%network_http. vm_compute in H. discriminate.
Qed.

Print Assumptions C36_remote_partial.
Print Assumptions C36_shared_partial.
Print Assumptions C36_hosts_refuted.
Print Assumptions C35_addresses.
