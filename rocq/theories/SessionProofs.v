(** Proofs about what a session leaves in the cache (C112). *)
From Verif Require Import Base QNameModel ErrBase ErrModel CtxModel DtsModel DtsProofs OpenModel OpenFilingModel SessionModel.
From Verif Require Import CacheProofs.
Local Open Scope nat_scope.

(** The cache files of [a] are among those of [b]. *)
Definition within (a b : list (str * str)) : Prop :=
  forall name text, dict_get str_eqb a name = Some text -> dict_get str_eqb b name = Some text.
Lemma within_refl a : within a a.
Proof. intros n t H. exact H. Qed.
Lemma within_trans a b c : within a b -> within b c -> within a c.
Proof. intros H K n t E. apply K, H, E. Qed.

Section Try.
Context {tree : Type}.

(** ** The same outcome as without the cache of failures *)
Definition outcome (x : res unit * cache tree) : res (cache tree) := match fst x with Ok _ => Ok (snd x) | Raise e => Raise e end.

Lemma fetch_try_ok (w : world tree) s remote uri :
  fetch w s remote uri = match fetch_try w s remote uri with (Ok t, s') => Ok (t, s') | (Raise e, _) => Raise e end.
Proof.
  unfold fetch, fetch_try. destruct (has_file s uri).
  - destruct (get_file s uri); reflexivity.
  - destruct remote.
    + destruct (w_remote w uri) as [t|]; [|reflexivity]. cbn [or_error bind]. cbv zeta. destruct (get_file _ uri); reflexivity.
    + cbv zeta. destruct (w_local w (w_path w uri)) as [t|]; [|reflexivity]. cbn [or_error bind]. destruct (get_file _ _); reflexivity.
Qed.

Lemma each_try_ok (f : str -> cache tree -> res (cache tree)) g l s : (forall x s, f x s = outcome (g x s)) ->
  for_each f l s = outcome (each_try g l s).
Proof.
  intros H. revert s. induction l as [|x l IH]; intros s; [reflexivity|]. cbn [for_each each_try]. rewrite H.
  destruct (g x s) as [[[]|e] s']; unfold outcome at 1; cbn [fst snd bind]; [apply IH|reflexivity].
Qed.

Lemma add_etree_try_ok (w : world tree) r fuel : forall uri ref s, add_etree_recursive w r fuel uri ref s = outcome (add_etree_try w r fuel uri ref s).
Proof.
  induction fuel as [|fuel IH]; intros uri ref s; [reflexivity|]. cbn [add_etree_recursive add_etree_try]. cbv zeta.
  destruct (has_etree s _); [reflexivity|]. destruct (get_parser _) as [p|e]; [|reflexivity]. cbn [bind].
  rewrite fetch_try_ok. destruct (fetch_try w s _ _) as [[t|e] s']; [|reflexivity]. cbn [bind fst snd].
  destruct (w_parse w p t) as [tr|]; [|reflexivity]. cbn [or_error bind].
  destruct (get_file _ _) as [c|e]; [|reflexivity]. cbn [bind]. destruct (extract_references c) as [refs|e]; [|reflexivity]. cbn [bind].
  apply each_try_ok. intros x s0. apply IH.
Qed.
Lemma load_all_try_ok (w : world tree) r fuel l s : load_all w r fuel l s = outcome (load_all_try w r fuel l s).
Proof. apply each_try_ok. intros x s0. apply add_etree_try_ok. Qed.

(** ** The cache only grows *)
Section Grow.
Variable w : world tree.
Hypothesis Hname : forall v, is_http v = false -> uri_to_filename (w_path w v) = uri_to_filename v.

(** What fetching does *)
Lemma fetch_try_cases s remote v : (is_http v = true -> remote = true) ->
  match dict_get str_eqb (files s) (uri_to_filename v) with
  | Some t => fetch_try w s remote v = (Ok t, s)
  | None => match (if remote then w_remote w v else w_local w (w_path w v)) with
            | None => fetch_try w s remote v = (Raise OSError, s)
            | Some t => fetch_try w s remote v = (Ok t, Cache (dict_set str_eqb (files s) (uri_to_filename v) t) (trees s))
            end
  end.
Proof.
  intros Hr. unfold fetch_try, has_file, get_file, dict_mem, add_file.
  destruct (dict_get str_eqb (files s) (uri_to_filename v)) as [t|] eqn:E; [reflexivity|]. destruct remote.
  - destruct (w_remote w v) as [t|]; [|reflexivity]. cbn [files]. rewrite (dict_get_set_same _ str_eqb_spec). reflexivity.
  - cbv zeta. assert (En : uri_to_filename (w_path w v) = uri_to_filename v) by (apply Hname; destruct (is_http v); [discriminate (Hr eq_refl)|reflexivity]).
    destruct (w_local w (w_path w v)) as [t|]; [|reflexivity]. cbn [files]. rewrite En, (dict_get_set_same _ str_eqb_spec). reflexivity.
Qed.

Lemma set_within f name (t : str) : dict_get str_eqb f name = None -> within f (dict_set str_eqb f name t).
Proof. intros E n x H. rewrite (dict_get_set_other _ str_eqb_spec); [exact H|]. intros ->. congruence. Qed.

Lemma fetch_grows s remote v : (is_http v = true -> remote = true) -> within (files s) (files (snd (fetch_try w s remote v))).
Proof.
  intros Hr. pose proof (fetch_try_cases s remote v Hr) as H. destruct (dict_get _ _ _) as [t|] eqn:E; [rewrite H; apply within_refl|].
  destruct (if remote then _ else _) as [t|]; rewrite H; [apply set_within, E|apply within_refl].
Qed.

Lemma each_grows (f : str -> cache tree -> res unit * cache tree) l s : (forall x s, within (files s) (files (snd (f x s)))) -> within (files s) (files (snd (each_try f l s))).
Proof.
  intros H. revert s. induction l as [|x l IH]; intros s; [apply within_refl|]. cbn [each_try]. pose proof (H x s) as Hx.
  destruct (f x s) as [[[]|e] s']; cbn [snd] in *; [exact (within_trans _ _ _ Hx (IH s'))|exact Hx].
Qed.

Lemma remote_of v ref : is_http v = true -> is_http v || is_http ref = true.
Proof. intros ->. reflexivity. Qed.

Lemma add_grows r fuel : forall uri ref s, within (files s) (files (snd (add_etree_try w r fuel uri ref s))).
Proof.
  induction fuel as [|fuel IH]; intros uri ref s; [apply within_refl|]. cbn [add_etree_try]. cbv zeta.
  destruct (has_etree s _); [apply within_refl|]. destruct (get_parser _) as [p|e]; [|apply within_refl].
  pose proof (fetch_grows s (is_http (resolve w r uri ref) || is_http ref) (resolve w r uri ref) (remote_of _ ref)) as G.
  destruct (fetch_try w s _ _) as [[t|e] s']; cbn [snd] in *; [|exact G]. destruct (w_parse w p t) as [tr|]; [|exact G].
  destruct (bind _ _) as [refs|e]; [|exact G]. apply (within_trans _ (files (add_etree s' (resolve w r uri ref) tr))); [exact G|].
  apply each_grows. intros x s0. apply IH.
Qed.
Lemma load_grows r fuel l s : within (files s) (files (snd (load_all_try w r fuel l s))).
Proof. apply each_grows. intros x s0. apply add_grows. Qed.
End Grow.

(** ** A world in which more can be fetched *)
Section More.
Variables w w' : world tree.
Hypothesis Hjoin : w_urljoin w = w_urljoin w'.
Hypothesis Hpath : w_path w = w_path w'.
Hypothesis Hparse : w_parse w = w_parse w'.
Hypothesis Horder : w_order w = w_order w'.
Hypothesis Hremote : forall v t, w_remote w v = Some t -> w_remote w' v = Some t.
Hypothesis Hlocal : forall v t, w_local w v = Some t -> w_local w' v = Some t.
Hypothesis Hname : forall v, is_http v = false -> uri_to_filename (w_path w v) = uri_to_filename v.

Lemma Hname' v : is_http v = false -> uri_to_filename (w_path w' v) = uri_to_filename v.
Proof. rewrite <- Hpath. apply Hname. Qed.
Lemma resolve_more r x ref : resolve w r x ref = resolve w' r x ref.
Proof. unfold resolve. rewrite Hjoin. reflexivity. Qed.

(** The session in the smaller world does the same, or stops with a part of the files. *)
Definition shorter (x y : res unit * cache tree) : Prop :=
  x = y \/ exists e, fst x = Raise e /\ within (files (snd x)) (files (snd y)).

Lemma each_shorter (f g : str -> cache tree -> res unit * cache tree) l s : (forall x s, shorter (f x s) (g x s)) -> (forall x s, within (files s) (files (snd (g x s)))) ->
  shorter (each_try f l s) (each_try g l s).
Proof.
  intros H G. revert s. induction l as [|x l IH]; intros s; [left; reflexivity|]. cbn [each_try].
  destruct (H x s) as [E|(e & Ee & W)].
  - rewrite E. destruct (g x s) as [[[]|e] s']; [apply IH|left; reflexivity].
  - destruct (f x s) as [o s1]. cbn [fst snd] in Ee, W. subst o. right. exists e. split; [reflexivity|]. cbn [snd].
    destruct (g x s) as [[[]|e'] s2]; cbn [snd] in W |- *; [|exact W].
    exact (within_trans _ _ _ W (each_grows g l s2 G)).
Qed.

Lemma fetch_shorter s remote v : (is_http v = true -> remote = true) ->
  fetch_try w s remote v = fetch_try w' s remote v \/ (fetch_try w s remote v = (Raise OSError, s)).
Proof.
  intros Hr. pose proof (fetch_try_cases w Hname s remote v Hr) as A. pose proof (fetch_try_cases w' Hname' s remote v Hr) as B.
  destruct (dict_get _ _ _) as [t|]; [left; congruence|]. rewrite <- Hpath in B. destruct remote.
  - destruct (w_remote w v) as [t|] eqn:E; [rewrite (Hremote _ _ E) in B; left; congruence|right; exact A].
  - destruct (w_local w (w_path w v)) as [t|] eqn:E; [rewrite (Hlocal _ _ E) in B; left; congruence|right; exact A].
Qed.

Lemma add_shorter r fuel : forall uri ref s, shorter (add_etree_try w r fuel uri ref s) (add_etree_try w' r fuel uri ref s).
Proof.
  induction fuel as [|fuel IH]; intros uri ref s; [left; reflexivity|]. pose proof (add_grows w' Hname' r (S fuel) uri ref s) as G.
  cbn [add_etree_try] in *. cbv zeta in *. rewrite <- (resolve_more r uri ref) in *. set (v := resolve w r uri ref) in *.
  destruct (has_etree s v); [left; reflexivity|]. destruct (get_parser v) as [p|e]; [|left; reflexivity].
  destruct (fetch_shorter s (is_http v || is_http ref) v (remote_of v ref)) as [E|E].
  - rewrite E. destruct (fetch_try w' s _ v) as [[t|e] s']; [|left; reflexivity]. rewrite Hparse. destruct (w_parse w' p t) as [tr|]; [|left; reflexivity].
    destruct (bind _ _) as [refs|e]; [|left; reflexivity]. rewrite Horder. apply each_shorter; [intros x s0; apply IH|intros x s0; apply add_grows, Hname'].
  - rewrite E. right. exists OSError. split; [reflexivity|exact G].
Qed.
Lemma load_shorter r fuel l s : shorter (load_all_try w r fuel l s) (load_all_try w' r fuel l s).
Proof. apply each_shorter; [intros x s0; apply add_shorter|intros x s0; apply add_grows, Hname']. Qed.
End More.

(** ** A session that finds in the cache a part of what it is going to put there *)
Section Again.
Variable w : world tree.
Hypothesis Hname : forall v, is_http v = false -> uri_to_filename (w_path w v) = uri_to_filename v.

(** [fin] is the cache at the end of the first session. *)
Definition leads (fin : list (str * str)) (x : res unit * cache tree) : Prop :=
  within (files (snd x)) fin /\ match fst x with Ok _ => True | Raise _ => within fin (files (snd x)) end.
Definition partway (fin : list (str * str)) (s y : cache tree) : Prop := trees s = trees y /\ within (files s) (files y) /\ within (files y) fin.

Definition agree fin (x y : res unit * cache tree) : Prop := fst x = fst y /\ partway fin (snd x) (snd y).

Lemma each_agree fin (f : str -> cache tree -> res unit * cache tree) l : (forall x s, within (files s) (files (snd (f x s)))) ->
  (forall x s y, leads fin (f x s) -> partway fin s y -> agree fin (f x s) (f x y)) ->
  forall s y, leads fin (each_try f l s) -> partway fin s y -> agree fin (each_try f l s) (each_try f l y).
Proof.
  intros G H. induction l as [|x l IH]; intros s y L P; [split; [reflexivity|exact P]|]. cbn [each_try] in *.
  assert (Lx : leads fin (f x s)).
  { destruct (f x s) as [[[]|e] s1] eqn:E; [|exact L]. split; [|exact I]. destruct L as [L _]. cbn [snd]. exact (within_trans _ _ _ (each_grows f l s1 G) L). }
  destruct (H x s y Lx P) as [E1 P1]. destruct (f x s) as [[[]|e] s1], (f x y) as [[[]|e'] y1]; cbn [fst snd] in *; try discriminate E1.
  - apply IH; assumption.
  - split; [exact E1|exact P1].
Qed.

Lemma has_etree_partway fin s y v : partway fin s y -> has_etree s v = has_etree y v.
Proof. intros (E & _). unfold has_etree. rewrite E. reflexivity. Qed.

Lemma fetch_agree fin s y remote v : (is_http v = true -> remote = true) -> partway fin s y ->
  within (files (snd (fetch_try w s remote v))) fin ->
  (forall e, fst (fetch_try w s remote v) = Raise e -> within fin (files s)) ->
  fst (fetch_try w s remote v) = fst (fetch_try w y remote v) /\ partway fin (snd (fetch_try w s remote v)) (snd (fetch_try w y remote v)).
Proof.
  intros Hr (Et & Wa & Wb) L F. pose proof (fetch_try_cases w Hname s remote v Hr) as A. pose proof (fetch_try_cases w Hname y remote v Hr) as B.
  destruct (dict_get str_eqb (files s) (uri_to_filename v)) as [t|] eqn:E.
  - rewrite (Wa _ _ E) in B. rewrite A, B. split; [reflexivity|]. split; [exact Et|split; assumption].
  - destruct (if remote then _ else _) as [t|] eqn:Ew.
    + rewrite A in *. cbn [fst snd files trees] in *.
      assert (Lt : dict_get str_eqb fin (uri_to_filename v) = Some t) by (apply L, (dict_get_set_same _ str_eqb_spec)).
      destruct (dict_get str_eqb (files y) (uri_to_filename v)) as [t'|] eqn:Ey.
      * assert (t' = t) by (apply Wb in Ey; congruence). subst t'. rewrite B. cbn [fst snd]. split; [reflexivity|]. split; [exact Et|]. split; [|exact Wb].
        cbn [files]. intros n x Hx. destruct (str_eqb_spec n (uri_to_filename v)) as [->|Hn].
        -- rewrite (dict_get_set_same _ str_eqb_spec) in Hx. congruence.
        -- rewrite (dict_get_set_other _ str_eqb_spec) in Hx by congruence. exact (Wa _ _ Hx).
      * rewrite B. cbn [fst snd]. split; [reflexivity|]. split; [exact Et|]. cbn [files].
        split; intros n x Hx; destruct (str_eqb_spec n (uri_to_filename v)) as [->|Hn].
        -- rewrite (dict_get_set_same _ str_eqb_spec) in *. exact Hx.
        -- rewrite (dict_get_set_other _ str_eqb_spec) in * by congruence. exact (Wa _ _ Hx).
        -- rewrite (dict_get_set_same _ str_eqb_spec) in Hx. congruence.
        -- rewrite (dict_get_set_other _ str_eqb_spec) in Hx by congruence. exact (Wb _ _ Hx).
    + rewrite A in *. cbn [fst snd] in *. specialize (F _ eq_refl).
      destruct (dict_get str_eqb (files y) (uri_to_filename v)) as [t'|] eqn:Ey; [apply Wb, F in Ey; congruence|].
      rewrite B. split; [reflexivity|]. split; [exact Et|split; assumption].
Qed.

Lemma add_agree r fin fuel : forall uri ref s y, leads fin (add_etree_try w r fuel uri ref s) -> partway fin s y ->
  agree fin (add_etree_try w r fuel uri ref s) (add_etree_try w r fuel uri ref y).
Proof.
  induction fuel as [|fuel IH]; intros uri ref s y L P; [split; [reflexivity|exact P]|].
  cbn [add_etree_try] in *. cbv zeta in *. set (v := resolve w r uri ref) in *. rewrite <- (has_etree_partway fin s y v P).
  destruct (has_etree s v); [split; [reflexivity|exact P]|]. destruct (get_parser v) as [p|e]; [|split; [reflexivity|exact P]].
  pose proof (fetch_agree fin s y (is_http v || is_http ref) v (remote_of v ref) P) as F.
  pose proof (fetch_try_cases w Hname s (is_http v || is_http ref) v (remote_of v ref)) as Fs.
  pose proof (fetch_try_cases w Hname y (is_http v || is_http ref) v (remote_of v ref)) as Fy.
  destruct (fetch_try w s (is_http v || is_http ref) v) as [os s1] eqn:Es, (fetch_try w y (is_http v || is_http ref) v) as [oy y1] eqn:Ey. cbn [fst snd] in F.
  destruct os as [text|e].
  2: { assert (s1 = s) as -> by (destruct (dict_get _ (files s) _); [congruence|destruct (if is_http v || is_http ref then w_remote w v else w_local w (w_path w v)); congruence]).
       destruct L as [L1 L2]. cbn [fst snd] in L1, L2. destruct (F L1 (fun _ _ => L2)) as [<- P1]. split; [reflexivity|exact P1]. }
  assert (W1 : within (files s1) fin).
  { destruct L as [L _]. refine (within_trans _ _ _ _ L). destruct (w_parse w p text) as [tr|]; [|apply within_refl]. destruct (bind _ _) as [refs|e]; [|apply within_refl].
    apply (within_trans _ (files (add_etree s1 v tr))); [apply within_refl|]. apply each_grows. intros x s0. apply add_grows, Hname. }
  destruct (F W1) as [<- P1]; [intros e X; discriminate X|]. destruct (w_parse w p text) as [tr|]; [|split; [reflexivity|exact P1]].
  assert (P2 : partway fin (add_etree s1 v tr) (add_etree y1 v tr)).
  { destruct P1 as (E & A & B). split; [unfold add_etree; cbn [trees]; rewrite E; reflexivity|split; assumption]. }
  assert (Gs : dict_get str_eqb (files s1) (uri_to_filename v) = Some text).
  { destruct (dict_get str_eqb (files s) (uri_to_filename v)) as [t|] eqn:E; [congruence|].
    destruct (if is_http v || is_http ref then w_remote w v else w_local w (w_path w v)) as [t|]; [|discriminate Fs]. injection Fs as <- ->. cbn [files]. apply (dict_get_set_same _ str_eqb_spec). }
  assert (Eg : get_file (add_etree y1 v tr) v = get_file (add_etree s1 v tr) v).
  { unfold get_file, add_etree. cbn [files]. destruct P1 as (_ & A & _). rewrite (A _ _ Gs), Gs. reflexivity. }
  rewrite Eg in *. destruct (bind _ _) as [refs|e]; [|split; [reflexivity|exact P2]].
  apply each_agree; [intros x s0; apply add_grows, Hname|intros x s0 y0; apply IH|exact L|exact P2].
Qed.
Lemma load_agree r fin fuel l s y : leads fin (load_all_try w r fuel l s) -> partway fin s y -> agree fin (load_all_try w r fuel l s) (load_all_try w r fuel l y).
Proof. apply each_agree; [intros x s0; apply add_grows, Hname|intros x s0 y0; apply add_agree]. Qed.
End Again.
End Try.
