(** Proofs about cache file names (C36), rewriting (C37) and loading (C35). *)
From Verif Require Import Base Regex RegexProofs ErrBase ErrTable ErrModel CtxModel DtsModel DtsSpec DtsRefs.

(** ** Texts *)

Lemma prefix_spec (p s : str) : starts_with p s = true <-> exists rest, s = p ++ rest.
Proof.
  revert s; induction p as [|a p IH]; intros s; cbn.
  - split; eauto.
  - destruct s as [|b s].
    + split; [discriminate|]. intros (r & E); discriminate.
    + destruct (N.eqb_spec a b) as [->|Hn]; cbn.
      * rewrite IH. split; intros (r & E); exists r; congruence.
      * split; [discriminate|]. intros (r & E); congruence.
Qed.

Lemma contains_spec (p s : str) : contains p s = true <-> exists a b, s = a ++ p ++ b.
Proof.
  induction s as [|c s IH]; cbn [contains].
  - rewrite orb_false_r, prefix_spec. split.
    + intros (r & E). exists [], r; auto.
    + intros ([|? a] & b & E); [eauto|discriminate].
  - rewrite orb_true_iff, prefix_spec, IH. split.
    + intros [(r & E)|(a & b & ->)]; [exists [], r; auto|exists (c :: a), b; auto].
    + intros ([|d a] & b & E); [left; exists b; auto|right; injection E as -> ->; eauto].
Qed.

Lemma remove_none (pat s : str) : pat <> [] -> contains pat s = false -> remove_all pat s = s.
Proof.
  intros Hp. unfold remove_all. induction s as [|c s IH]; cbn [contains remove_from]; [reflexivity|].
  intros H. apply orb_false_iff in H as [H1 H2]. rewrite H1, IH; auto.
Qed.

Lemma contains_without pat s c : In c pat -> ~ In c s -> contains pat s = false.
Proof.
  intros Hc Hs. destruct (contains pat s) eqn:E; [|reflexivity].
  apply contains_spec in E as (a & b & ->). exfalso; apply Hs.
  apply in_or_app; right; apply in_or_app; left; auto.
Qed.

Lemma prefix_sep pat a c b : ~ In c pat -> starts_with pat (a ++ c :: b) = starts_with pat a.
Proof.
  revert a; induction pat as [|x pat IH]; intros a H; [reflexivity|].
  destruct a as [|y a]; cbn.
  - destruct (N.eqb_spec x c) as [->|]; [exfalso; apply H; cbn; auto|reflexivity].
  - rewrite IH; [reflexivity|]. intros F; apply H; cbn; auto.
Qed.

Lemma contains_sep (pat a : str) c (b : str) : ~ In c pat -> contains pat (a ++ c :: b) = contains pat a || contains pat b.
Proof.
  intros H. induction a as [|x a IH].
  - cbn [app contains]. rewrite <- (app_nil_l (c :: b)) at 1. rewrite prefix_sep by auto.
    rewrite orb_false_r. reflexivity.
  - cbn [app contains]. rewrite IH. replace (x :: a ++ c :: b) with ((x :: a) ++ c :: b) by reflexivity.
    rewrite prefix_sep by auto. apply orb_assoc.
Qed.

Lemma prefix_length p s : starts_with p s = true -> length p <= length s.
Proof. rewrite prefix_spec. intros (r & ->). rewrite app_length. lia. Qed.

Lemma remove_sep_from pat a c b : ~ In c pat -> forall k, k <= length a ->
  remove_from k pat (a ++ c :: b) = remove_from k pat a ++ remove_all pat (c :: b).
Proof.
  intros H. induction a as [|x a IH]; intros k Hk.
  - cbn in Hk. assert (k = 0) as -> by lia. reflexivity.
  - cbn [length] in Hk. cbn [app remove_from]. destruct k as [|k].
    + replace (x :: a ++ c :: b) with ((x :: a) ++ c :: b) by reflexivity.
      rewrite prefix_sep by auto. destruct (starts_with pat (x :: a)) eqn:E.
      * apply prefix_length in E. cbn in E. rewrite IH by lia. reflexivity.
      * rewrite IH by lia. reflexivity.
    + rewrite IH by lia. reflexivity.
Qed.

Lemma remove_sep (pat a : str) c (b : str) : ~ In c pat -> pat <> [] ->
  remove_all pat (a ++ c :: b) = remove_all pat a ++ c :: remove_all pat b.
Proof.
  intros H Hp. unfold remove_all at 1. rewrite remove_sep_from by (auto; lia).
  f_equal. unfold remove_all. cbn [remove_from].
  destruct pat as [|x pat]; [congruence|]. cbn [starts_with].
  destruct (N.eqb_spec x c) as [->|]; [exfalso; apply H; cbn; auto|reflexivity].
Qed.

Lemma split_app c (p s : str) : exists l, l <> [] /\ split_char c (p ++ c :: s) = l ++ split_char c s.
Proof.
  induction p as [|x p IH]; cbn [app split_char].
  - rewrite N.eqb_refl. exists [[]]. split; [discriminate|reflexivity].
  - destruct IH as (l & Hl & ->). destruct (N.eqb x c).
    + exists ([] :: l). split; [discriminate|reflexivity].
    + destruct l as [|q l]; [congruence|]. exists ((x :: q) :: l). split; [discriminate|reflexivity].
Qed.

Lemma last_app_nonempty {A} (l m : list A) d : m <> [] -> last (l ++ m) d = last m d.
Proof.
  intros Hm. induction l as [|x l IH]; [reflexivity|].
  cbn [app]. rewrite last_cons_nonempty; auto. destruct l, m; cbn; congruence.
Qed.

(** ** C36 *)

Definition alnum (e : str) : Prop := e <> [] /\ forall c, In c e -> is_alnum c = true.

Lemma alnum_no e c : alnum e -> is_alnum c = false -> ~ In c e.
Proof. intros [_ H] Hc Hi. apply H in Hi. congruence. Qed.

Lemma file_format_spec x e : alnum e -> file_format (x ++ ch "." :: e) = ch "." :: e.
Proof.
  intros [Hn He]. unfold file_format.
  assert (Hs : chop_newline (x ++ ch "." :: e) = x ++ ch "." :: e).
  { unfold chop_newline. destruct (rev (x ++ ch "." :: e)) as [|c r] eqn:E; [reflexivity|].
    destruct (N.eqb_spec c 10) as [->|]; [|reflexivity]. exfalso.
    assert (I : In 10%N e).
    { rewrite rev_app_distr in E. cbn [rev] in E. destruct (rev e) as [|d l] eqn:El.
      - apply (f_equal (@rev N)) in El. rewrite rev_involutive in El. cbn in El. congruence.
      - cbn in E. injection E as -> _. apply in_rev. rewrite El. cbn; auto. }
    apply He in I. vm_compute in I. discriminate. }
  rewrite Hs. clear Hs.
  destruct (split_app (ch ".") x e) as (l & Hl & ->).
  rewrite (split_none (ch ".") e) by (eapply alnum_no; [split; eauto|reflexivity]).
  cbv zeta. rewrite last_last.
  assert (Hf : forallb is_alnum e = true) by (apply forallb_forall; auto).
  assert (L1 : 1 <? length (l ++ [e]) = true).
  { apply Nat.ltb_lt. rewrite app_length. cbn. destruct l; [congruence|cbn; lia]. }
  assert (L2 : 0 <? length e = true) by (apply Nat.ltb_lt; destruct e; [congruence|cbn; lia]).
  rewrite L1, L2, Hf. reflexivity.
Qed.

Definition flat (c : N) : N :=
  if (N.eqb c (ch "/") || N.eqb c (ch ":") || N.eqb c (ch "?") || N.eqb c (ch ".") || N.eqb c backslash)%bool
  then ch "_" else c.

Lemma subst_chain s :
  subst_char backslash (ch "_") (subst_char (ch ".") (ch "_") (subst_char (ch "?") (ch "_")
    (subst_char (ch ":") (ch "_") (subst_char (ch "/") (ch "_") s)))) = map flat s.
Proof.
  unfold subst_char. rewrite !map_map. apply map_ext. intros c. unfold flat.
  destruct (N.eqb_spec c (ch "/")) as [->|]; [reflexivity|].
  destruct (N.eqb_spec c (ch ":")) as [->|]; [reflexivity|].
  destruct (N.eqb_spec c (ch "?")) as [->|]; [reflexivity|].
  destruct (N.eqb_spec c (ch ".")) as [->|]; [reflexivity|].
  destruct (N.eqb_spec c backslash) as [->|]; reflexivity.
Qed.

Lemma flat_no_dot s : ~ In (ch ".") (map flat s).
Proof.
  intros H. apply in_map_iff in H as (c & E & _). unfold flat in E.
  destruct (N.eq_dec c (ch ".")) as [Hc|Hn].
  - rewrite Hc in E. vm_compute in E. discriminate.
  - destruct (_ || _)%bool in E; [vm_compute in E; discriminate|congruence].
Qed.

(** A path below a directory: no [.], [:], [?], [\] or [_] in it, and not ending in "www". *)
Definition plain_path (p : str) : Prop :=
  (forall c, In c p -> ~ In c [ch "."; ch ":"; ch "?"; backslash; ch "_"]) /\
  (forall q, p <> q ++ u "www").

Lemma flat_inj p q : plain_path p -> plain_path q -> map flat p = map flat q -> p = q.
Proof.
  intros [Hp _] [Hq _]. revert q Hq; induction p as [|a p IH]; intros [|b q] Hq E; try discriminate; [reflexivity|].
  cbn [map] in E. injection E as E1 E2. f_equal.
  - assert (A := Hp a (or_introl eq_refl)). assert (B := Hq b (or_introl eq_refl)).
    unfold flat in E1.
    destruct (N.eqb_spec a (ch "/")) as [->|]; destruct (N.eqb_spec b (ch "/")) as [->|]; auto;
    repeat match type of E1 with
    | context [N.eqb ?x ?y] => destruct (N.eqb_spec x y) as [?|?]; cbn [orb] in E1;
        [exfalso; subst; first [apply A; cbn; tauto|apply B; cbn; tauto]|]
    end; cbn [orb] in E1; auto; exfalso.
    + apply B. rewrite <- E1. cbn; tauto.
    + apply A. rewrite E1. cbn; tauto.
  - apply IH; auto; intros c Hc; [apply Hp|apply Hq]; cbn; auto.
Qed.

(** The start of the URIs of one directory. *)
Definition plain_base (scheme dir : str) : Prop :=
  (scheme = u "http://" \/ scheme = u "https://") /\ ~ In (ch ":") dir /\ contains (u "..") dir = false.

Definition uri_of (scheme dir p e : str) : str := scheme ++ dir ++ ch "/" :: p ++ ch "." :: e.

Lemma no_www p e : ~ In (ch ".") p -> (forall q, p <> q ++ u "www") -> ~ In (ch ".") e ->
  contains (u "www.") (p ++ ch "." :: e) = false.
Proof.
  intros Hp Hw He. destruct (contains (u "www.") (p ++ ch "." :: e)) eqn:E; [|reflexivity]. exfalso.
  apply contains_spec in E as (a & b & E).
  assert (E' : p ++ ch "." :: e = (a ++ u "www") ++ ch "." :: b) by (rewrite E, <- app_assoc; reflexivity).
  apply app_eq_cases in E' as [(l & -> & E2)|(x & l & E1 & E2)].
  - destruct l as [|y l].
    + rewrite app_nil_r in *. apply (Hw a). reflexivity.
    + cbn [app] in E2. injection E2 as <- E2. apply Hp. apply in_or_app; right; left; reflexivity.
  - injection E2 as <- E2. apply He. rewrite E2. apply in_or_app; right; left; reflexivity.
Qed.

Lemma filename_http scheme dir p e : plain_base scheme dir -> plain_path p -> alnum e ->
  uri_to_filename (uri_of scheme dir p e) =
  map flat (remove_all (u "www.") dir) ++ ch "_" :: map flat p ++ ch "_" :: map flat e ++ ch "." :: e.
Proof.
  intros (Hs & Hd & Hdd) (Hp & Hw) He.
  assert (Pd : ~ In (ch ".") p) by (intros F; apply (Hp _ F); cbn; tauto).
  assert (Pc : ~ In (ch ":") p) by (intros F; apply (Hp _ F); cbn; tauto).
  assert (Ed : ~ In (ch ".") e) by (eapply alnum_no; eauto).
  assert (Ec : ~ In (ch ":") e) by (eapply alnum_no; eauto).
  assert (Rc : ~ In (ch ":") (dir ++ ch "/" :: p ++ ch "." :: e)).
  { intros F. apply in_app_or in F as [F|[F|F]]; [auto|discriminate F|].
    apply in_app_or in F as [F|[F|F]]; [auto|discriminate F|auto]. }
  assert (FF : file_format (uri_of scheme dir p e) = ch "." :: e).
  { unfold uri_of. replace (scheme ++ dir ++ ch "/" :: p ++ ch "." :: e)
      with ((scheme ++ dir ++ ch "/" :: p) ++ ch "." :: e).
    - apply file_format_spec; auto.
    - rewrite <- app_assoc. f_equal. rewrite <- app_assoc. reflexivity. }
  unfold uri_to_filename. rewrite FF.
  assert (HT : starts_with (u "http") (uri_of scheme dir p e) = true) by (destruct Hs as [-> | ->]; reflexivity).
  rewrite HT. cbn [negb].
  assert (R1 : remove_all (ch "." :: ch "." :: e) (uri_of scheme dir p e) = uri_of scheme dir p e).
  { apply remove_none; [discriminate|].
    assert (C2 : contains (u "..") (uri_of scheme dir p e) = false).
    { unfold uri_of.
      assert (E2 : exists s0, scheme = s0 ++ [ch "/"] /\ contains (u "..") s0 = false).
      { destruct Hs as [-> | ->]; [exists (u "http:/")|exists (u "https:/")]; split; reflexivity. }
      destruct E2 as (s0 & -> & Hs0). rewrite <- app_assoc. cbn [app].
      assert (NS : ~ In (ch "/") (u "..")) by (vm_compute; intuition discriminate).
      rewrite contains_sep by exact NS. rewrite Hs0, contains_sep by exact NS. rewrite Hdd. cbn [orb].
      destruct (contains (u "..") (p ++ ch "." :: e)) eqn:E; [|reflexivity]. exfalso.
      apply contains_spec in E as (a & b & E).
      change (u ".." ++ b) with (ch "." :: ch "." :: b) in E.
      apply app_eq_cases in E as [(l & -> & E2)|(x & l & -> & E2)].
      - destruct l as [|y l].
        + injection E2 as E2. apply Ed. rewrite <- E2. cbn; auto.
        + injection E2 as <- E2. apply Pd. apply in_or_app; right; cbn; auto.
      - injection E2 as <- E2. apply Ed. rewrite E2. apply in_or_app; right; cbn; auto. }
    destruct (contains (ch "." :: ch "." :: e) (uri_of scheme dir p e)) eqn:E; [|reflexivity].
    apply contains_spec in E as (a & b & E).
    assert (contains (u "..") (uri_of scheme dir p e) = true); [|congruence].
    apply contains_spec. exists a, (e ++ b). exact E. }
  rewrite R1.
  assert (CH : contains (u "http") (uri_of scheme dir p e) = true).
  { apply contains_spec. apply prefix_spec in HT as (r & ->). exists [], r. reflexivity. }
  rewrite CH.
  set (rest := dir ++ ch "/" :: p ++ ch "." :: e) in *.
  assert (R2 : remove_all (u "https://") (remove_all (u "http://") (uri_of scheme dir p e)) = rest).
  { assert (N1 : forall pat, In (ch ":") pat -> remove_all pat rest = rest).
    { intros pat Hin. apply remove_none; [intros ->; contradiction|]. apply (contains_without _ _ (ch ":")); auto. }
    assert (I1 : In (ch ":") (u "http://")) by (vm_compute; tauto).
    assert (I2 : In (ch ":") (u "https://")) by (vm_compute; tauto).
    change (uri_of scheme dir p e) with (scheme ++ rest).
    destruct Hs as [-> | ->].
    - assert (E : remove_all (u "http://") (u "http://" ++ rest) = remove_all (u "http://") rest).
      { clear. reflexivity. }
      rewrite E, (N1 _ I1). apply (N1 _ I2).
    - assert (E : remove_all (u "http://") (u "https://" ++ rest) = u "https://" ++ remove_all (u "http://") rest).
      { clear. reflexivity. }
      rewrite E, (N1 _ I1).
      assert (E2 : remove_all (u "https://") (u "https://" ++ rest) = remove_all (u "https://") rest).
      { clear. reflexivity. }
      rewrite E2. apply (N1 _ I2). }
  rewrite R2, subst_chain.
  unfold rest. rewrite remove_sep by (vm_compute; intuition discriminate).
  rewrite (remove_none (u "www.") (p ++ ch "." :: e)) by (try discriminate; apply no_www; auto).
  rewrite map_app. cbn [map]. rewrite map_app. cbn [map].
  change (flat (ch "/")) with (ch "_"). change (flat (ch ".")) with (ch "_").
  rewrite <- app_assoc. cbn [app]. rewrite <- app_assoc. reflexivity.
Qed.

Lemma last_sep (c : N) (a b e f : str) : ~ In c a -> ~ In c b -> a ++ c :: e = b ++ c :: f -> a = b /\ e = f.
Proof.
  revert b; induction a as [|x a IH]; intros [|y b] Ha Hb E; cbn in E.
  - injection E as ->; auto.
  - injection E as <- E. exfalso; apply Hb; cbn; auto.
  - injection E as -> E. exfalso; apply Ha; cbn; auto.
  - injection E as -> E. destruct (IH b) as [-> ->]; auto; intros F; [apply Ha|apply Hb]; cbn; auto.
Qed.

Lemma filename_http_inj scheme dir p e q f : plain_base scheme dir ->
  plain_path p -> alnum e -> plain_path q -> alnum f ->
  uri_to_filename (uri_of scheme dir p e) = uri_to_filename (uri_of scheme dir q f) -> p = q /\ e = f.
Proof.
  intros Hb Hp He Hq Hf. rewrite !filename_http by assumption. intros E.
  apply app_inv_head in E. injection E as E.
  assert (G : forall x y, map flat x ++ ch "_" :: map flat y ++ ch "." :: y =
    (map flat x ++ ch "_" :: map flat y) ++ ch "." :: y).
  { intros x y. rewrite <- app_assoc. reflexivity. }
  rewrite !G in E.
  assert (N : forall x y, ~ In (ch ".") (map flat x ++ ch "_" :: map flat y)).
  { intros x y F. apply in_app_or in F as [F|[F|F]]; [eapply flat_no_dot; eauto|discriminate F|eapply flat_no_dot; eauto]. }
  apply last_sep in E as [E ->]; auto.
  apply app_inv_tail in E. split; [|reflexivity]. apply flat_inj; auto.
Qed.

Lemma subst_none a b s : ~ In a s -> subst_char a b s = s.
Proof.
  intros H. unfold subst_char. rewrite <- (map_id s) at 2. apply map_ext_in. intros c Hc.
  destruct (N.eqb_spec c a) as [->|]; [contradiction|reflexivity].
Qed.

Lemma subst_in a b s c : In c (subst_char a b s) -> c = b \/ (In c s /\ c <> a).
Proof.
  unfold subst_char. intros H. apply in_map_iff in H as (x & E & Hx).
  destruct (N.eqb x a) eqn:Ex; [auto|]. apply N.eqb_neq in Ex. subst; auto.
Qed.

(** The name of a local file: everything before its last separator is dropped. *)
Lemma filename_local dir sep name : is_http (dir ++ sep :: name) = false ->
  sep = ch "/" \/ sep = backslash -> ~ In (ch "/") name -> ~ In backslash name ->
  uri_to_filename (dir ++ sep :: name) = name.
Proof.
  intros H Hs N1 N2. unfold uri_to_filename. unfold is_http in H. rewrite H. cbn [negb].
  assert (E : subst_char backslash (ch "/") (dir ++ sep :: name) = subst_char backslash (ch "/") dir ++ ch "/" :: name).
  { unfold subst_char. rewrite map_app. cbn [map]. f_equal.
    change (map _ name) with (subst_char backslash (ch "/") name). rewrite subst_none by auto. f_equal.
    destruct Hs as [-> | ->]; reflexivity. }
  rewrite E.
  assert (M : mem_char (ch "/") (subst_char backslash (ch "/") dir ++ ch "/" :: name) = true).
  { apply mem_char_In. apply in_or_app; right; cbn; auto. }
  rewrite M. destruct (split_app (ch "/") (subst_char backslash (ch "/") dir) name) as (l & _ & ->).
  rewrite (split_none _ name) by auto. apply last_last.
Qed.

Lemma filename_bare name : is_http name = false -> ~ In (ch "/") name -> ~ In backslash name ->
  uri_to_filename name = name.
Proof.
  intros H N1 N2. unfold uri_to_filename. unfold is_http in H. rewrite H. cbn [negb].
  rewrite subst_none by auto. destruct (mem_char (ch "/") name) eqn:M; [|reflexivity].
  apply mem_char_In in M. contradiction.
Qed.

(** ** C37 *)

Lemma skipn_prefix (p r : str) : skipn (length p) (p ++ r) = r.
Proof. rewrite skipn_app, skipn_all, Nat.sub_diag. reflexivity. Qed.

(** The rule used is the first one that matches. *)
Lemma rewrite_first rs uri :
  (exists l rule m, rs = l ++ rule :: m /\ (forall x, In x l -> ~ matches uri x) /\
     matches uri rule /\ rewritten_by rule uri (rewrite rs uri)) \/
  ((forall x, In x rs -> ~ matches uri x) /\ rewrite rs uri = uri).
Proof.
  induction rs as [|[k v] rs IH]; cbn [rewrite].
  - right; split; [intros ? []|reflexivity].
  - destruct (starts_with k uri) eqn:E.
    + left. apply prefix_spec in E as (r & ->). exists [], (k, v), rs. split; [reflexivity|].
      split; [intros ? []|]. split; [exists r; reflexivity|].
      exists r. rewrite skipn_prefix. auto.
    + assert (N : ~ matches uri (k, v)).
      { intros (r & F). assert (starts_with k uri = true) by (apply prefix_spec; exists r; exact F). congruence. }
      destruct IH as [(l & rule & m & -> & Hl & Hm & Hr)|[Hn Hr]].
      * left. exists ((k, v) :: l), rule, m. split; [reflexivity|]. split; [|auto].
        intros x [<-|Hx]; auto.
      * right. split; [|auto]. intros x [<-|Hx]; auto.
Qed.

Lemma prefixes_comparable (a b s t r : str) : s = a ++ r -> s = b ++ t -> length a <= length b -> exists x, b = a ++ x.
Proof.
  intros -> E L. apply app_eq_cases in E as [(l & -> & _)|(x & l & -> & _)]; [|eauto].
  rewrite app_length in L. assert (length l = 0) by lia. destruct l; [|discriminate].
  exists []. rewrite !app_nil_r. reflexivity.
Qed.

(** ** The catalog *)

Definition entry_of (dir : list str) (child : xml) : list (str * str) :=
  match attr child (u "uriStartString"), attr child (u "rewritePrefix") with
  | Some ((_ :: _) as s), Some ((_ :: _) as p) => [(s, join (u "/") (dir ++ split_char (ch "/") p))]
  | _, _ => []
  end.

Definition rules_of (dir : list str) (l : list xml) : list (str * str) := flat_map (entry_of dir) l.

Definition incomplete (child : xml) : bool :=
  blank (attr child (u "uriStartString")) || blank (attr child (u "rewritePrefix")).

Lemma entry_cases dir child :
  (incomplete child = true /\ entry_of dir child = []) \/
  (incomplete child = false /\ exists s p, attr child (u "uriStartString") = Some s /\
     attr child (u "rewritePrefix") = Some p /\ s <> [] /\ p <> [] /\
     entry_of dir child = [(s, join (u "/") (dir ++ split_char (ch "/") p))]).
Proof.
  unfold incomplete, entry_of, blank.
  destruct (attr child (u "uriStartString")) as [[|a s]|]; cbn [orb]; auto.
  destruct (attr child (u "rewritePrefix")) as [[|b p]|]; auto.
  right. split; [reflexivity|]. exists (a :: s), (b :: p). repeat split; discriminate.
Qed.

Lemma multiple_raises (es : repo xml) child s :
  insert es "MULTIPLE_REWRITE_URIS_FOR_START_STRING" (Some child) [(u "uri", s)] = Raise ValueError.
Proof. vm_compute. reflexivity. Qed.

Lemma missing_inserts (es : repo xml) child : exists e, er_context e = Some child /\ er_severity e = ERROR /\
  insert es "REWRITE_URI_MISSING_ATTRIBUTE" (Some child) [] = Ok (es ++ [e]).
Proof. eexists (Error _ _ _ _ _ _). split; [|split]. 3: vm_compute; reflexivity. all: reflexivity. Qed.

Lemma root_inserts (es : repo xml) root : exists e, er_context e = Some root /\ er_severity e = ERROR /\
  insert es "INVALID_CATALOG_ROOT_NODE" (Some root) [] = Ok (es ++ [e]).
Proof. eexists (Error _ _ _ _ _ _). split; [|split]. 3: vm_compute; reflexivity. all: reflexivity. Qed.

Lemma existsb_In s l : existsb (str_eqb s) l = true <-> In s l.
Proof.
  rewrite existsb_exists. split.
  - intros (x & Hx & E). apply str_eqb_eq in E. subst; auto.
  - intros H; exists s; split; auto. apply str_eqb_refl.
Qed.

Lemma catalog_rules_ok dir l : forall seen r es,
  NoDup (map fst (rules_of dir l)) -> (forall s, In s seen <-> In s (map fst r)) ->
  (forall s, In s (map fst (rules_of dir l)) -> ~ In s seen) ->
  exists es', catalog_rules dir l seen r es = Ok (r ++ rules_of dir l, es ++ es') /\
    map er_context es' = map Some (filter incomplete l) /\ (forall e, In e es' -> er_severity e = ERROR).
Proof.
  induction l as [|child l IH]; intros seen r es Hn Hs Hd; cbn [catalog_rules].
  - exists []. cbn. rewrite !app_nil_r. repeat split; auto. intros ? [].
  - unfold rules_of in *. cbn [flat_map] in *. cbn [filter].
    destruct (entry_cases dir child) as [[Hi He]|(Hi & s & p & Es & Ep & Ns & Np & He)]; rewrite Hi, He in *.
    + destruct (missing_inserts es child) as (e & Hc & Hsv & Hins).
      destruct (IH seen r (es ++ [e])) as (es' & H1 & H2 & H3); auto.
      exists (e :: es'). cbn [app map]. rewrite Hc, H2. split; [|split; [reflexivity|]].
      * rewrite <- app_assoc in H1. cbn [app] in H1. rewrite <- H1. unfold incomplete, blank in Hi.
        destruct (attr child (u "uriStartString")) as [[|a s]|]; cbn [orb] in Hi;
          try (rewrite Hins; reflexivity).
        destruct (attr child (u "rewritePrefix")) as [[|b p]|]; try (rewrite Hins; reflexivity).
        discriminate Hi.
      * intros x [<-|Hx]; auto.
    + rewrite Es, Ep. destruct s as [|a s]; [congruence|]. destruct p as [|b p]; [congruence|].
      set (S0 := a :: s) in *. set (P0 := b :: p) in *.
      cbn [app map] in Hn, Hd. inversion Hn as [|x y Hx Hy]; subst.
      assert (NS : existsb (str_eqb S0) seen = false).
      { destruct (existsb (str_eqb S0) seen) eqn:E; [|reflexivity].
        apply existsb_In in E. exfalso. apply (Hd S0); cbn; auto. }
      rewrite NS. cbn [bind].
      assert (NR : ~ In S0 (map fst r)).
      { rewrite <- Hs. apply Hd. cbn; auto. }
      unfold rewrite_upsert. rewrite (dict_set_keys_new _ str_eqb_spec) by exact NR.
      destruct (IH (S0 :: seen) (r ++ [(S0, join (u "/") (dir ++ split_char (ch "/") P0))]) es) as (es' & H1 & H2 & H3).
      * exact Hy.
      * intros q. rewrite map_app, in_app_iff. cbn [In map fst]. rewrite Hs. tauto.
      * intros q Hq [<-|F]; [contradiction|]. apply (Hd q); cbn; auto.
      * exists es'. rewrite <- app_assoc in H1. cbn [app] in *. auto.
Qed.

Lemma catalog_rules_dup dir l : forall seen r es,
  ~ NoDup (map fst (rules_of dir l)) \/ (exists s, In s (map fst (rules_of dir l)) /\ In s seen) ->
  catalog_rules dir l seen r es = Raise ValueError.
Proof.
  induction l as [|child l IH]; intros seen r es H; cbn [catalog_rules].
  - exfalso. destruct H as [H|(s & [] & _)]. apply H. constructor.
  - unfold rules_of in *. cbn [flat_map] in *.
    destruct (entry_cases dir child) as [[Hi He]|(Hi & s & p & Es & Ep & Ns & Np & He)]; rewrite He in *.
    + destruct (missing_inserts es child) as (e & Hc & Hsv & Hins).
      cbn [app] in H. rewrite <- (IH seen r (es ++ [e]) H). unfold incomplete, blank in Hi.
      destruct (attr child (u "uriStartString")) as [[|a s]|]; cbn [orb] in Hi;
        try (rewrite Hins; reflexivity).
      destruct (attr child (u "rewritePrefix")) as [[|b p]|]; try (rewrite Hins; reflexivity).
      discriminate Hi.
    + rewrite Es, Ep. destruct s as [|a s]; [congruence|]. destruct p as [|b p]; [congruence|].
      set (S0 := a :: s) in *. set (P0 := b :: p) in *. cbn [app map fst] in H.
      destruct (existsb (str_eqb S0) seen) eqn:E.
      * rewrite multiple_raises. reflexivity.
      * cbn [bind]. apply IH.
        assert (NI : ~ In S0 seen) by (intros F; apply existsb_In in F; congruence).
        destruct (in_dec (list_eq_dec N.eq_dec) S0 (map fst (flat_map (entry_of dir) l))) as [I|NI2].
        -- right. exists S0. split; [auto|cbn; auto].
        -- destruct H as [H|(q & [<-|Hq] & Hq2)].
           ++ left. intros ND. apply H. constructor; auto.
           ++ contradiction.
           ++ right. exists q. split; [auto|cbn; auto].
Qed.

(** ** The catalog among the entry points *)

Lemma shortest_spec l : forall p,
  let best := fold_left (fun best q => if length q <? length best then q else best) l p in
  In best (p :: l) /\ (forall q, In q (p :: l) -> length best <= length (q : str)).
Proof.
  induction l as [|x l IH]; intros p; cbn [fold_left].
  - split; [cbn; auto|]. intros q [<-|[]]. auto.
  - destruct (IH (if length x <? length p then x else p)) as [H1 H2]. cbv zeta in *.
    destruct (Nat.ltb_spec (length x) (length p)).
    + split; [cbn [In] in *; tauto|].
      intros q [<-|[<-|Hq]].
      * specialize (H2 x (or_introl eq_refl)). lia.
      * apply H2; cbn; auto.
      * apply H2; cbn; auto.
    + split; [cbn [In] in *; tauto|].
      intros q [<-|[<-|Hq]].
      * apply H2; cbn; auto.
      * specialize (H2 p (or_introl eq_refl)). lia.
      * apply H2; cbn; auto.
Qed.

Lemma remove_first_spec x l : In x l -> exists a b, l = a ++ x :: b /\ ~ In x a /\ remove_first x l = a ++ b.
Proof.
  induction l as [|y l IH]; [intros []|]. intros H. cbn [remove_first].
  destruct (str_eqb_spec y x) as [->|Hn].
  - exists [], l. repeat split; auto.
  - destruct H as [H|H]; [congruence|]. destruct (IH H) as (a & b & -> & Ha & ->).
    exists (y :: a), b. repeat split; auto. intros [F|F]; [congruence|auto].
Qed.
