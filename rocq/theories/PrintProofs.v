(** Lemmas about printed networks, dictionaries and tables of facts. *)
From Coq Require Import QArith.
From Verif Require Import Base QNameModel CtxModel CtxSpec CtxProofs PrintModel PrintSpec.
Local Open Scope nat_scope.

(** ** Printed networks *)

Definition cols (d : nat) (later : list (nat * nat)) : str :=
  flat_map (fun k => if goes_on k later then u "│  " else u "   ") (seq 0 d).
(** The first of the later entries is further to the left than [d]. *)
Definition left_of (d : nat) (later : list (nat * nat)) : Prop :=
  match later with [] => True | e :: _ => fst e < d end.

Lemma goes_on_deep k es later : (forall e, In e es -> k < fst e) -> goes_on k (es ++ later) = goes_on k later.
Proof.
  induction es as [|e es IH]; intros H; [reflexivity|]. unfold goes_on in *. cbn [app find].
  destruct (Nat.leb_spec (fst e) k) as [L|L]; [|apply IH; intros e' He'; apply H; right; exact He'].
  specialize (H e (or_introl eq_refl)). lia.
Qed.

Lemma cols_deep d es later : (forall e, In e es -> d <= fst e) -> cols d (es ++ later) = cols d later.
Proof.
  intros H. unfold cols. rewrite !flat_map_concat_map. f_equal. apply map_ext_in. intros k Hk.
  apply in_seq in Hk. rewrite goes_on_deep; [reflexivity|]. intros e He. specialize (H e He). lia.
Qed.

Lemma entries_deep : forall t d e, In e (entries d t) -> d <= fst e.
Proof.
  fix IH 1. intros [i kids] d e [<-|H]; [reflexivity|]. apply in_flat_map in H. destruct H as (t & Ht & He).
  assert (S d <= fst e); [|lia].
  revert t Ht He. induction kids as [|k kids IHk]; intros t Ht He; [destruct Ht|].
  destruct Ht as [<-|Ht]; [apply (IH k); exact He|apply (IHk t Ht He)].
Qed.

Lemma forest_deep ts d e : In e (flat_map (entries d) ts) -> d <= fst e.
Proof. intros H. apply in_flat_map in H. destruct H as (t & _ & He). eapply entries_deep; eauto. Qed.

Lemma goes_on_left d later : left_of d later -> goes_on d later = false.
Proof.
  destruct later as [|e l]; intros H; [reflexivity|]. unfold goes_on. cbn in *.
  destruct (Nat.leb_spec (fst e) d); [|lia]. apply Nat.eqb_neq. lia.
Qed.

Lemma goes_on_here d i later : goes_on d ((d, i) :: later) = true.
Proof. unfold goes_on. cbn. rewrite Nat.leb_refl. cbn. apply Nat.eqb_refl. Qed.

Lemma cols_S d later : cols (S d) later = cols d later ++ (if goes_on d later then u "│  " else u "   ").
Proof. unfold cols. rewrite seq_S, flat_map_app. cbn [flat_map plus]. rewrite app_nil_r. reflexivity. Qed.

Definition text_in (g : net) (i : nat) : str := shown (g i).

Definition prints (g : net) (f : nat) : Prop := forall last header i lines,
  print_sub_network f g last header i = Ok lines ->
  exists t, below g i t /\ forall d later, header = cols d later -> left_of (S d) later ->
    goes_on d later = negb last ->
    drawing (text_in g) (entries d t ++ later) = lines ++ drawing (text_in g) later.

Lemma print_all_draws g f header : prints g f -> forall l lines,
  print_all (fun b => print_sub_network f g b header) l = Ok lines ->
  exists ts, belows g l ts /\ forall d later, header = cols d later -> left_of d later ->
    drawing (text_in g) (flat_map (entries d) ts ++ later) = lines ++ drawing (text_in g) later.
Proof.
  intros IH. induction l as [|i l IHl]; cbn; intros lines H.
  - injection H as <-. exists []. split; [constructor|]. reflexivity.
  - destruct (print_sub_network _ _ _ _ i) as [a|] eqn:Ea; [|discriminate]. cbn in H.
    destruct (print_all _ l) as [b|] eqn:Eb; [|discriminate]. cbn in H. injection H as <-.
    destruct (IHl b eq_refl) as (ts & Hts & Dts). destruct (IH _ _ _ _ Ea) as (t & Ht & Dt).
    exists (t :: ts). split; [constructor; assumption|]. intros d later Hh Hl. cbn [flat_map].
    rewrite <- !app_assoc. rewrite <- (Dts d later Hh Hl). apply Dt.
    + rewrite cols_deep; [exact Hh|]. intros e He. apply (forest_deep ts); exact He.
    + inversion Hts as [|j l' t' ts' Ht' Hts']; subst; cbn.
      * destruct later; cbn in *; [exact I|lia].
      * inversion Ht'; subst. cbn. lia.
    + inversion Hts as [|j l' t' ts' Ht' Hts']; subst; cbn.
      * apply goes_on_left; exact Hl.
      * inversion Ht'; subst. cbn. apply goes_on_here.
Qed.

Lemma print_draws g : forall f, prints g f.
Proof.
  induction f as [|f IH]; intros last header i lines H; [discriminate|]. cbn in H.
  destruct (print_all _ (pn_kids (g i))) as [rest|] eqn:E; [|discriminate]. cbn in H. injection H as <-.
  destruct (print_all_draws g f _ IH _ _ E) as (ts & Hts & D).
  exists (Item i ts). split; [constructor; exact Hts|]. intros d later Hh Hl Hg.
  cbn [entries app drawing]. f_equal.
  - unfold draw. cbn [fst snd].
    assert (Hk : forall e, In e (flat_map (entries (S d)) ts) -> S d <= fst e) by (intros e; apply forest_deep).
    rewrite goes_on_deep by (intros e He; specialize (Hk e He); lia). rewrite Hg.
    change (flat_map (fun k => if goes_on k (flat_map (entries (S d)) ts ++ later) then u "│  " else u "   ") (seq 0 d))
      with (cols d (flat_map (entries (S d)) ts ++ later)).
    rewrite cols_deep by (intros e He; specialize (Hk e He); lia). rewrite <- Hh. destruct last; reflexivity.
  - apply D; [|exact Hl]. rewrite cols_S, Hg, <- Hh. destruct last; reflexivity.
Qed.

(** *** When it ends *)

Definition can_print (g : net) (f i : nat) : Prop :=
  forall last header, exists lines, print_sub_network f g last header i = Ok lines.

Lemma print_all_ok p l : (forall b i, In i l -> exists ls, p b i = Ok ls) -> exists ls, print_all p l = Ok ls.
Proof.
  induction l as [|i l IH]; cbn; intros H; [eauto|].
  destruct (H (match l with [] => true | _ => false end) i (or_introl eq_refl)) as [a ->].
  destruct IH as [b ->]; [intros; apply H; right; assumption|]. cbn. eauto.
Qed.

Lemma print_all_inv p l ls : print_all p l = Ok ls -> forall i, In i l -> exists b ls', p b i = Ok ls'.
Proof.
  revert ls. induction l as [|j l IH]; cbn; intros ls H i; [intros []|].
  destruct (p _ j) as [a|] eqn:E; [|discriminate]. cbn in H. destruct (print_all p l) as [b|]; [|discriminate].
  intros [->|Hi]; [eauto|apply (IH b eq_refl i Hi)].
Qed.

Lemma print_S g f last header i : print_sub_network (S f) g last header i =
  do! rest <- print_all (fun b => print_sub_network f g b (header ++ (if last then SPACE else PIPE))) (pn_kids (g i));
  Ok ((header ++ (if last then ELBOW else TEE) ++ shown (g i)) :: rest).
Proof. reflexivity. Qed.

Lemma can_any g : forall f last header i ls, print_sub_network f g last header i = Ok ls -> can_print g f i.
Proof.
  induction f as [|f IH]; intros last header i ls E b h; [discriminate|]. rewrite print_S in *.
  destruct (print_all _ (pn_kids (g i))) as [r|] eqn:Er; [|discriminate].
  destruct (print_all_ok (fun b' => print_sub_network f g b' (h ++ (if b then SPACE else PIPE))) (pn_kids (g i)))
    as [ls' E']; [|rewrite E'; cbn; eauto].
  intros b' j Hj. destruct (print_all_inv _ _ _ Er j Hj) as (b3 & ls3 & E3). eapply IH; exact E3.
Qed.

Lemma can_print_S g f i : can_print g f i -> can_print g (S f) i.
Proof.
  revert i. induction f as [|f IH]; intros i H last header; [destruct (H last header) as [ls E]; discriminate|].
  destruct (H last header) as [ls E]. rewrite print_S in *.
  destruct (print_all _ (pn_kids (g i))) as [r|] eqn:Er in E; [|discriminate].
  destruct (print_all_ok
    (fun b => print_sub_network (S f) g b (header ++ (if last then SPACE else PIPE))) (pn_kids (g i))) as [ls' E'].
  - intros b j Hj. apply IH. destruct (print_all_inv _ _ _ Er j Hj) as (b'' & ls'' & E''). eapply can_any; exact E''.
  - rewrite E'. cbn. eauto.
Qed.

Lemma can_print_le g f f' i : f <= f' -> can_print g f i -> can_print g f' i.
Proof. intros L. induction L; [auto|]. intros H. apply can_print_S. auto. Qed.

Lemma fuel_all (P : nat -> nat -> Prop) (l : list nat) :
  (forall f f' k, f <= f' -> P f k -> P f' k) -> (forall k, In k l -> exists f, P f k) ->
  exists f, forall k, In k l -> P f k.
Proof.
  intros Hm. induction l as [|a l IH]; intros H; [exists 0; intros k []|].
  destruct (H a (or_introl eq_refl)) as [f1 H1].
  destruct IH as [f2 H2]; [intros; apply H; right; assumption|].
  exists (Nat.max f1 f2). intros k [<-|Hk]; [apply (Hm f1); [lia|exact H1]|apply (Hm f2); [lia|auto]].
Qed.

Lemma acc_prints g i : Acc (child g) i -> exists f, can_print g f i.
Proof.
  induction 1 as [i _ IH].
  destruct (fuel_all (can_print g) (pn_kids (g i))) as [f Hf]; [intros; eapply can_print_le; eauto|exact IH|].
  exists (S f). intros last header. rewrite print_S.
  destruct (print_all_ok (fun b => print_sub_network f g b (header ++ (if last then SPACE else PIPE))) (pn_kids (g i)))
    as [ls E]; [|rewrite E; cbn; eauto]. intros b j Hj. apply Hf; exact Hj.
Qed.

Lemma prints_acc g : forall f last header i ls, print_sub_network f g last header i = Ok ls -> Acc (child g) i.
Proof.
  induction f as [|f IH]; intros last header i ls H; [discriminate|]. cbn in H.
  destruct (print_all _ (pn_kids (g i))) as [r|] eqn:Er; [|discriminate].
  constructor. intros j Hj. destruct (print_all_inv _ _ _ Er j Hj) as (b & ls' & E). eauto.
Qed.

Lemma network_ends g lr ln roots :
  (exists f ls, pprint_network f g lr ln roots = Ok ls) <-> (forall i, In i roots -> Acc (child g) i).
Proof.
  unfold pprint_network. split.
  - intros (f & ls & H) i Hi. destruct (print_all _ roots) as [b|] eqn:E; [|discriminate].
    destruct (print_all_inv _ _ _ E i Hi) as (b' & ls' & E'). eapply prints_acc; exact E'.
  - intros H. destruct (fuel_all (can_print g) roots) as [f Hf]; [intros; eapply can_print_le; eauto| |].
    { intros i Hi. apply acc_prints. auto. }
    destruct (print_all_ok (fun b => print_sub_network f g b []) roots) as [ls E].
    { intros b j Hj. apply Hf; exact Hj. }
    exists f. rewrite E. eexists. reflexivity.
Qed.

(** *** Reading *)

Lemma read_bar b r : read_line ((if b : bool then u "│  " else u "   ") ++ r) =
  match read_line r with Some (d, t) => Some (S d, t) | None => None end.
Proof. destruct b; reflexivity. Qed.

Lemma read_end b r : read_line ((if b : bool then u "├──" else u "└──") ++ r) = Some (0, r).
Proof. destruct b; reflexivity. Qed.

Lemma read_draw text e later : read_line (draw text e later) = Some (fst e, text (snd e)).
Proof.
  unfold draw. generalize 0 at 1. induction (fst e) as [|d IH] at 1 3; intros s; cbn [seq flat_map app].
  - apply read_end.
  - rewrite <- app_assoc, read_bar, IH. reflexivity.
Qed.

Lemma read_drawing text es : map read_line (drawing text es) = map (fun e => Some (fst e, text (snd e))) es.
Proof. induction es as [|e es IH]; cbn [drawing map]; [reflexivity|]. rewrite read_draw, IH. reflexivity. Qed.

(** *** The lines determine the tree *)

Fixpoint tentries (d : nat) (t : ttree) : list (nat * str) :=
  match t with TItem s kids => (d, s) :: flat_map (tentries (S d)) kids end.

Lemma tree_ind' (P : tree -> Prop) : (forall i kids, Forall P kids -> P (Item i kids)) -> forall t, P t.
Proof.
  intros H. fix IH 1. intros [i kids]. apply H. induction kids as [|k kids IHk]; constructor; [apply IH|exact IHk].
Qed.

Lemma texts_entries text t : forall d,
  map (fun e => (fst e, text (snd e))) (entries d t) = tentries d (texts text t).
Proof.
  induction t as [i kids IH] using tree_ind'. intros d. cbn [entries texts tentries map fst snd]. f_equal.
  induction IH as [|k kids Hk _ IHk]; [reflexivity|]. cbn [flat_map map]. rewrite map_app, Hk, IHk. reflexivity.
Qed.

Lemma texts_forest text ts d : map (fun e => (fst e, text (snd e))) (flat_map (entries d) ts) =
  flat_map (tentries d) (map (texts text) ts).
Proof.
  induction ts as [|t ts IH]; [reflexivity|]. cbn [flat_map map]. rewrite map_app, texts_entries, IH. reflexivity.
Qed.

Definition tleft (d : nat) (l : list (nat * str)) : Prop := match l with [] => True | e :: _ => fst e < d end.

Fixpoint tsize (t : ttree) : nat := match t with TItem _ kids => S (list_sum (map tsize kids)) end.

Lemma tentries_inj : forall n ts ts' d r r', list_sum (map tsize ts) <= n ->
  tleft d r -> tleft d r' -> flat_map (tentries d) ts ++ r = flat_map (tentries d) ts' ++ r' -> ts = ts' /\ r = r'.
Proof.
  induction n as [|n IH]; intros ts ts' d r r' Hn Hr Hr' E.
  - destruct ts as [|[s k] ts]; [|cbn in Hn; lia]. destruct ts' as [|[s' k'] ts']; [split; [reflexivity|exact E]|].
    cbn in E. subst r. cbn in Hr. lia.
  - destruct ts as [|[s k] ts].
    + destruct ts' as [|[s' k'] ts']; [split; [reflexivity|exact E]|]. cbn in E. subst r. cbn in Hr. lia.
    + destruct ts' as [|[s' k'] ts']; [cbn in E; subst r'; cbn in Hr'; lia|].
      cbn [flat_map tentries app] in E. injection E as -> E. rewrite <- !app_assoc in E. cbn [map tsize list_sum fold_right] in Hn; change (fold_right Nat.add 0) with list_sum in Hn.
      assert (L : forall l q, tleft d q -> tleft (S d) (flat_map (tentries d) l ++ q)).
      { intros [|[s2 k2] l] [|q l']; cbn; auto; lia. }
      apply IH in E; [|lia|apply L; exact Hr|apply L; exact Hr'].
      destruct E as [-> E]. apply IH in E; [|lia|exact Hr|exact Hr']. destruct E as [-> ->]. auto.
Qed.

Lemma drawing_determines text text' ts ts' :
  drawing text (flat_map (entries 0) ts) = drawing text' (flat_map (entries 0) ts') ->
  map (texts text) ts = map (texts text') ts'.
Proof.
  intros E. apply (f_equal (map read_line)) in E. rewrite !read_drawing in E.
  assert (E' : map (fun e => (fst e, text (snd e))) (flat_map (entries 0) ts) =
               map (fun e => (fst e, text' (snd e))) (flat_map (entries 0) ts')).
  { revert E. generalize (flat_map (entries 0) ts) (flat_map (entries 0) ts'). 
    induction l as [|a l IH]; intros [|b l'] E; cbn in *; try discriminate; [reflexivity|].
    injection E as E1 E2 E3. rewrite E1, E2. f_equal. apply IH. exact E3. }
  rewrite !texts_forest in E'.
  destruct (tentries_inj (list_sum (map tsize (map (texts text) ts))) (map (texts text) ts) (map (texts text') ts') 0 [] [])
    as [H _]; [reflexivity|exact I|exact I|rewrite !app_nil_r; exact E'|exact H].
Qed.

(** *** The text of the console *)

Lemma stdout_inj l l' : (forall s, In s l -> ~ In 10%N s) -> (forall s, In s l' -> ~ In 10%N s) ->
  stdout l = stdout l' -> l = l'.
Proof.
  unfold stdout. change (u "
") with [10%N].
  revert l'. induction l as [|s l IH]; intros [|s' l'] H H' E; cbn in E; auto.
  - destruct s'; discriminate.
  - destruct s; discriminate.
  - rewrite <- !app_assoc in E. cbn in E.
    assert (E' : s = s' /\ flat_map (fun t => t ++ [10%N]) l = flat_map (fun t => t ++ [10%N]) l').
    { assert (Hs := H s (or_introl eq_refl)). assert (Hs' := H' s' (or_introl eq_refl)). clear IH H H'.
      revert s' Hs' E. induction s as [|a s IH]; intros [|b s'] Hs' E; cbn in E.
      - injection E as E. auto.
      - exfalso. apply Hs'. left. congruence.
      - exfalso. apply Hs. left. congruence.
      - injection E as -> E. apply IH in E; [|intros X; apply Hs; right; exact X|intros X; apply Hs'; right; exact X].
        destruct E as [-> E]. auto. }
    destruct E' as [-> E']. f_equal. apply IH; auto; intros t Ht; [apply H|apply H']; right; exact Ht.
Qed.

Lemma draw_newline text e later : ~ In 10%N (text (snd e)) -> ~ In 10%N (draw text e later).
Proof.
  intros H. unfold draw. rewrite !in_app_iff. intros [X|[X|X]]; [|destruct (goes_on _ _) in X|exact (H X)].
  - apply in_flat_map in X. destruct X as (k & _ & X). destruct (goes_on k later); vm_compute in X; intuition discriminate.
  - vm_compute in X; intuition discriminate.
  - vm_compute in X; intuition discriminate.
Qed.

Lemma drawing_newline text es : (forall e, In e es -> ~ In 10%N (text (snd e))) ->
  forall s, In s (drawing text es) -> ~ In 10%N s.
Proof.
  induction es as [|e es IH]; intros H s; [intros []|]. intros [<-|Hs].
  - apply draw_newline. apply H. left. reflexivity.
  - apply IH; [|exact Hs]. intros e' He'. apply H. right. exact He'.
Qed.
