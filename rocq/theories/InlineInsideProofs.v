(** Proofs about elements within each other. *)
From Coq Require Import QArith Permutation Lia.
From Verif Require Import Base QNameModel QNameProofs ErrBase ErrModel NumModel DateModel CtxModel CtxSpec InlineModel InlineSpec
  InlineFilingModel InlineFilingSpec InlineFilingProofs.
From Verif Require TextModel TextSpec TextProofs TextProps FootModel FootSpec.
Local Open Scope nat_scope.
Local Opaque u.

Lemma below_length : forall t a b, length (below a t) = length (below b t).
Proof.
  fix IH 1. intros [tag attrs sc text kids tail] a b. cbn [below].
  generalize (Tree tag attrs sc text kids tail :: a) (Tree tag attrs sc text kids tail :: b). clear -IH. intros a b.
  induction kids as [|k ks IHk]; [reflexivity|]. cbn [flat_map length app]. rewrite !app_length, (IH k a b), IHk. reflexivity.
Qed.

Lemma app_split {A} (l1 : list A) : forall l2 a x c, l1 ++ l2 = a ++ x :: c ->
  (exists c1, l1 = a ++ x :: c1 /\ c = c1 ++ l2) \/ (exists a2, a = l1 ++ a2 /\ l2 = a2 ++ x :: c).
Proof.
  induction l1 as [|y l1 IH]; intros l2 a x c E; [right; exists a; auto|]. destruct a as [|z a]; cbn [app] in E; injection E as E1 E2.
  - subst. left. exists l1. auto.
  - subst z. destruct (IH _ _ _ _ E2) as [(c1 & -> & ->)|(a2 & -> & ->)]; [left; exists c1; auto|right; exists a2; auto].
Qed.

(** What is below an element follows it. *)
Lemma below_follows : forall r out a t ab c, below out r = a ++ (t, ab) :: c -> exists d, c = below ab t ++ d.
Proof.
  fix IH 1. intros [tag attrs sc text kids tail] out a t ab c. cbn [below].
  generalize (Tree tag attrs sc text kids tail :: out). clear out. intros out. revert a c.
  induction kids as [|k ks IHk]; intros a c; cbn [flat_map app]; [intros E; destruct a; discriminate E|].
  destruct a as [|z a]; cbn [app]; intros E.
  - injection E as <- <- <-. eexists. reflexivity.
  - injection E as _ E2. apply app_split in E2 as [(c1 & E2 & ->)|(a2 & -> & E2)]; [|exact (IHk _ _ E2)].
    destruct (IH k _ _ _ _ _ E2) as (d & ->). rewrite <- app_assoc. eexists. reflexivity.
Qed.

Definition seen (p : place) : tree * list tree := (p_tree p, p_above p).
Lemma number_seen n l : map seen (number_places n l) = l.
Proof.
  unfold number_places. rewrite map_map. cbn. revert n. induction l as [|[t ab] l IH]; intros n; [reflexivity|]. cbn. f_equal. apply IH.
Qed.
Lemma page_follows r m a p c : number_places m (below [] r) = a ++ p :: c -> exists b d, c = b ++ d /\ map seen b = below (p_above p) (p_tree p).
Proof.
  intros E. apply (f_equal (map seen)) in E. rewrite number_seen, map_app in E. cbn [map] in E. apply below_follows in E as (d & E).
  exists (firstn (length (below (p_above p) (p_tree p))) c), (skipn (length (below (p_above p) (p_tree p))) c).
  split; [symmetry; apply firstn_skipn|]. rewrite <- firstn_map, E, firstn_app, Nat.sub_diag, firstn_all, app_nil_r. reflexivity.
Qed.
Lemma pages_follow roots : forall n p, In p (flat_map snd (pages n roots)) ->
  exists a b c, flat_map snd (pages n roots) = a ++ p :: b ++ c /\ map seen b = below (p_above p) (p_tree p).
Proof.
  induction roots as [|r rs IH]; intros n p; cbn [pages flat_map snd]; [intros []|]. rewrite in_app_iff. intros [H|H].
  - apply in_split in H as (a & c & E). destruct (page_follows _ _ _ _ _ E) as (b & d & -> & Hb).
    exists a, b, (d ++ flat_map snd (pages (n + length (below [] r)) rs)). rewrite E, <- !app_assoc. cbn [app]. rewrite <- app_assoc. auto.
  - destruct (IH _ _ H) as (a & b & c & E & Hb). exists (number_places n (below [] r) ++ a), b, c. rewrite E, <- app_assoc. auto.
Qed.

Section Roots.
Variable roots : list tree.
Let all := all_places roots.

Lemma keys_are : map p_key all = seq 0 (length all).
Proof.
  destruct (pages_keys roots 0) as (m & E). unfold all, all_places. rewrite E. f_equal.
  apply (f_equal (@length nat)) in E. rewrite seq_length, map_length in E. auto.
Qed.
Lemma key_at a p b : all = a ++ p :: b -> p_key p = length a.
Proof.
  intros E. pose proof keys_are as K. rewrite E, map_app, app_length, seq_app in K. cbn [map length seq] in K.
  apply (f_equal (fun l => nth (length a) l 0)) in K. rewrite !app_nth2 in K by (rewrite ?map_length, ?seq_length; lia).
  rewrite map_length, seq_length, Nat.sub_diag in K. exact K.
Qed.

(** The numbers say what is within an element. *)
Lemma inside_keys p q : In p all -> In q all ->
  (p_key p < p_key q /\ p_key q <= p_key p + length (below [] (p_tree p)) <-> inside_of all p q).
Proof.
  intros Hp Hq. split.
  - destruct (pages_follow roots 0 p Hp) as (a & b & c & E & Hb). fold all in E. change (flat_map snd (pages 0 roots)) with all in E.
    intros [H1 H2]. exists a, b, c. split; [exact E|]. split; [exact Hb|].
    assert (L : length b = length (below [] (p_tree p))).
    { rewrite <- (map_length seen), Hb. apply below_length. }
    pose proof (key_at _ _ _ E) as Kp. rewrite E in Hq. apply in_app_iff in Hq as [Hq|[<-|Hq]].
    + exfalso. apply in_split in Hq as (a1 & a2 & ->). rewrite <- app_assoc in E. cbn [app] in E. apply key_at in E. rewrite app_length in Kp. cbn in Kp. lia.
    + lia.
    + apply in_app_iff in Hq as [Hq|Hq]; [exact Hq|]. exfalso. apply in_split in Hq as (c1 & c2 & ->).
      replace (a ++ p :: b ++ c1 ++ q :: c2) with ((a ++ p :: b ++ c1) ++ q :: c2) in E by (rewrite <- app_assoc; cbn [app]; rewrite <- app_assoc; reflexivity).
      apply key_at in E. rewrite app_length in E. cbn [length] in E. rewrite app_length in E. lia.
  - intros (a & b & c & E & Hb & Hin).
    assert (L : length b = length (below [] (p_tree p))).
    { rewrite <- (map_length seen). change (map (fun z => (p_tree z, p_above z)) b) with (map seen b) in Hb. rewrite Hb. apply below_length. }
    pose proof (key_at _ _ _ E) as Kp. apply in_split in Hin as (b1 & b2 & ->).
    replace (a ++ p :: (b1 ++ q :: b2) ++ c) with ((a ++ p :: b1) ++ q :: b2 ++ c) in E by (rewrite <- !app_assoc; cbn [app]; rewrite <- ?app_assoc; reflexivity).
    apply key_at in E. rewrite app_length in E, L. cbn [length] in E, L. lia.
Qed.
End Roots.
