(** Shared vocabulary: Python values used by the models.

    - [str] is a Python [str]: a sequence of Unicode code points.
    - [res A] is the outcome of Python code: a value or a raised exception.
    - [dict] is a Python [dict]: insertion ordered, assignment to an existing key
      keeps the position of the key.
    - [stable_sort] is Python's [list.sort(key=...)] / [sorted]: a stable sort. *)
From Coq Require Export Ascii String.
From Coq Require Export NArith ZArith Bool Lia List Permutation Sorted.
Export ListNotations.
Open Scope list_scope.
Open Scope nat_scope.

Definition char := N.
Definition str := list N.

(** ** String literals: UTF-8 bytes of the source file, decoded to code points. *)

Fixpoint utf8_decode (l : list N) : str :=
  match l with
  | [] => []
  | a :: t1 =>
      if (a <? 128)%N then a :: utf8_decode t1
      else match t1 with
      | [] => [a]
      | b :: t2 =>
          if (a <? 224)%N then ((a - 192) * 64 + (b - 128))%N :: utf8_decode t2
          else match t2 with
          | [] => [a; b]
          | c :: t3 =>
              if (a <? 240)%N
              then ((a - 224) * 4096 + (b - 128) * 64 + (c - 128))%N :: utf8_decode t3
              else match t3 with
              | [] => [a; b; c]
              | d :: t4 =>
                  ((a - 240) * 262144 + (b - 128) * 4096 + (c - 128) * 64 + (d - 128))%N
                    :: utf8_decode t4
              end
          end
      end
  end.

Definition u (s : string) : str := utf8_decode (map N_of_ascii (list_ascii_of_string s)).

(** One-character literal. *)
Definition ch (s : string) : N := hd 0%N (u s).

(** ** Equality *)

Fixpoint list_eqb {A} (eqb : A -> A -> bool) (a b : list A) : bool :=
  match a, b with
  | [], [] => true
  | x :: a', y :: b' => eqb x y && list_eqb eqb a' b'
  | _, _ => false
  end.

Definition str_eqb : str -> str -> bool := list_eqb N.eqb.

Lemma list_eqb_spec {A} (eqb : A -> A -> bool) :
  (forall x y, reflect (x = y) (eqb x y)) ->
  forall a b, reflect (a = b) (list_eqb eqb a b).
Proof.
  intros He a; induction a as [|x a IH]; intros [|y b]; cbn; try (constructor; congruence).
  destruct (He x y) as [->|Hn]; cbn.
  - destruct (IH b) as [->|Hn]; constructor; congruence.
  - constructor; congruence.
Qed.

Lemma str_eqb_spec a b : reflect (a = b) (str_eqb a b).
Proof. apply list_eqb_spec; intros; apply N.eqb_spec. Qed.

Lemma str_eqb_eq a b : str_eqb a b = true <-> a = b.
Proof. destruct (str_eqb_spec a b); intuition congruence. Qed.

Lemma str_eqb_refl a : str_eqb a a = true.
Proof. apply str_eqb_eq; reflexivity. Qed.

Lemma str_eqb_neq a b : str_eqb a b = false <-> a <> b.
Proof. destruct (str_eqb_spec a b); intuition congruence. Qed.

Lemma str_eqb_sym a b : str_eqb a b = str_eqb b a.
Proof. destruct (str_eqb_spec a b), (str_eqb_spec b a); congruence. Qed.

Definition str_eq_dec (a b : str) : {a = b} + {a <> b} := list_eq_dec N.eq_dec a b.

Definition opt_eqb {A} (eqb : A -> A -> bool) (a b : option A) : bool :=
  match a, b with
  | None, None => true
  | Some x, Some y => eqb x y
  | _, _ => false
  end.

Lemma opt_eqb_spec {A} (eqb : A -> A -> bool) :
  (forall x y, reflect (x = y) (eqb x y)) ->
  forall a b, reflect (a = b) (opt_eqb eqb a b).
Proof.
  intros He [x|] [y|]; cbn; try (constructor; congruence).
  destruct (He x y) as [->|]; constructor; congruence.
Qed.

(** ** Outcomes *)

Inductive exn :=
| ValueError | TypeError | KeyError | IndexError | AttributeError
| NotImplementedError | UnboundLocalError | OSError | SyntaxError | OutOfFuel.

Inductive res (A : Type) := Ok (a : A) | Raise (e : exn).
Arguments Ok {A} _.
Arguments Raise {A} _.

Definition bind {A B} (m : res A) (k : A -> res B) : res B :=
  match m with Ok a => k a | Raise e => Raise e end.
Notation "'do!' x <- m ; k" := (bind m (fun x => k))
  (at level 200, x pattern, m at level 100, k at level 200, right associativity).

(** The errors inserted into the error repository, by name of the error code. *)
Definition log := list string.

(** A list comprehension whose element expression may raise. *)
Fixpoint map_res {A B} (f : A -> res B) (l : list A) : res (list B) :=
  match l with
  | [] => Ok []
  | x :: l' => do! y <- f x ; do! ys <- map_res f l' ; Ok (y :: ys)
  end.

Definition is_ok {A} (m : res A) : bool := match m with Ok _ => true | _ => false end.

(** ** String helpers *)

(** [s.startswith(p)] *)
Fixpoint starts_with (p s : str) : bool :=
  match p, s with
  | [], _ => true
  | a :: p', b :: s' => N.eqb a b && starts_with p' s'
  | _, [] => false
  end.

(** [s.endswith(p)] *)
Definition ends_with (p s : str) : bool := starts_with (rev p) (rev s).

(** [p in s] *)
Fixpoint contains (p s : str) : bool :=
  starts_with p s || match s with [] => false | _ :: s' => contains p s' end.

(** [c in s] for a single character *)
Definition mem_char (c : N) (s : str) : bool := existsb (N.eqb c) s.

(** [str.split(sep)] for a one-character separator: always at least one piece. *)
Fixpoint split_char (c : N) (s : str) : list str :=
  match s with
  | [] => [[]]
  | x :: s' =>
      if N.eqb x c then [] :: split_char c s'
      else match split_char c s' with
           | p :: ps => (x :: p) :: ps
           | [] => [[x]]
           end
  end.

(** [sep.join(parts)] *)
Fixpoint join (sep : str) (parts : list str) : str :=
  match parts with
  | [] => []
  | [p] => p
  | p :: ps => p ++ sep ++ join sep ps
  end.

(** [l[-1]] on a non-empty list *)
Definition last_of {A} (l : list A) (d : A) : A := last l d.

(** Characters removed by [str.strip()] and matched by [\s] in Python. *)
Definition is_space (c : N) : bool :=
  ((9 <=? c) && (c <=? 13) || (28 <=? c) && (c <=? 32) || (c =? 133) || (c =? 160)
   || (c =? 5760) || (8192 <=? c) && (c <=? 8202) || (c =? 8232) || (c =? 8233)
   || (c =? 8239) || (c =? 8287) || (c =? 12288))%N.

Fixpoint drop_while {A} (f : A -> bool) (l : list A) : list A :=
  match l with
  | [] => []
  | x :: t => if f x then drop_while f t else l
  end.

Definition rdrop_while {A} (f : A -> bool) (l : list A) : list A :=
  rev (drop_while f (rev l)).

Definition lstrip (s : str) : str := drop_while is_space s.
Definition rstrip (s : str) : str := rdrop_while is_space s.
Definition strip (s : str) : str := rstrip (lstrip s).

(** ** Dictionaries *)

Section Dict.
  Context {K V : Type} (eqb : K -> K -> bool).

  Fixpoint dict_get (d : list (K * V)) (k : K) : option V :=
    match d with
    | [] => None
    | (k', v) :: d' => if eqb k' k then Some v else dict_get d' k
    end.

  Fixpoint dict_set (d : list (K * V)) (k : K) (v : V) : list (K * V) :=
    match d with
    | [] => [(k, v)]
    | (k', v') :: d' => if eqb k' k then (k', v) :: d' else (k', v') :: dict_set d' k v
    end.

  Definition dict_mem (d : list (K * V)) (k : K) : bool :=
    match dict_get d k with Some _ => true | None => false end.

  Definition dict_keys (d : list (K * V)) : list K := map fst d.
  Definition dict_values (d : list (K * V)) : list V := map snd d.

  Hypothesis eqb_spec : forall x y, reflect (x = y) (eqb x y).

  Lemma dict_get_set_same d k v : dict_get (dict_set d k v) k = Some v.
  Proof.
    induction d as [|[k' v'] d IH]; cbn.
    - destruct (eqb_spec k k); congruence.
    - destruct (eqb_spec k' k) as [->|Hn]; cbn.
      + destruct (eqb_spec k k); congruence.
      + destruct (eqb_spec k' k); [congruence|exact IH].
  Qed.

  Lemma dict_get_set_other d k k' v : k <> k' -> dict_get (dict_set d k v) k' = dict_get d k'.
  Proof.
    intros Hn; induction d as [|[k0 v0] d IH]; cbn.
    - destruct (eqb_spec k k'); congruence.
    - destruct (eqb_spec k0 k) as [->|H0]; cbn.
      + destruct (eqb_spec k k'); [congruence|reflexivity].
      + destruct (eqb_spec k0 k'); [reflexivity|exact IH].
  Qed.

  Lemma dict_get_in d k v : dict_get d k = Some v -> In (k, v) d.
  Proof.
    induction d as [|[k' v'] d IH]; cbn; [discriminate|].
    destruct (eqb_spec k' k) as [->|]; intros H; [left; congruence|right; auto].
  Qed.

  Lemma dict_get_none d k : dict_get d k = None <-> ~ In k (dict_keys d).
  Proof.
    unfold dict_keys; induction d as [|[k' v'] d IH]; cbn; [tauto|].
    destruct (eqb_spec k' k) as [->|Hn].
    - split; [discriminate|intros H; exfalso; apply H; left; reflexivity].
    - rewrite IH; tauto.
  Qed.

  Lemma dict_set_keys_new d k v : ~ In k (dict_keys d) -> dict_set d k v = d ++ [(k, v)].
  Proof.
    unfold dict_keys; induction d as [|[k' v'] d IH]; cbn; intros H; [reflexivity|].
    destruct (eqb_spec k' k) as [->|Hn]; [exfalso; tauto|].
    rewrite IH; [reflexivity|tauto].
  Qed.

  Lemma dict_set_keys_old d k v : In k (dict_keys d) -> dict_keys (dict_set d k v) = dict_keys d.
  Proof.
    unfold dict_keys; induction d as [|[k' v'] d IH]; cbn; intros H; [tauto|].
    destruct (eqb_spec k' k) as [->|Hn]; cbn; [reflexivity|].
    rewrite IH; [reflexivity|]. destruct H; [congruence|assumption].
  Qed.

End Dict.

Lemma NoDup_snoc {A} (l : list A) x : NoDup l -> ~ In x l -> NoDup (l ++ [x]).
Proof.
  intros H Hx. apply NoDup_rev in H.
  rewrite <- (rev_involutive (l ++ [x])). apply NoDup_rev.
  rewrite rev_app_distr; cbn. constructor; [|exact H].
  rewrite <- in_rev; exact Hx.
Qed.

Lemma dict_set_keys_nodup {K V} (eqb : K -> K -> bool)
  (eqb_spec : forall x y, reflect (x = y) (eqb x y)) (d : list (K * V)) k v :
  NoDup (dict_keys d) -> NoDup (dict_keys (dict_set eqb d k v)).
Proof.
  intros H. destruct (dict_get eqb d k) as [v0|] eqn:E.
  - rewrite (dict_set_keys_old eqb eqb_spec); [exact H|].
    apply (dict_get_in eqb eqb_spec) in E. apply (in_map fst) in E; exact E.
  - apply (dict_get_none eqb eqb_spec) in E.
    rewrite (dict_set_keys_new eqb eqb_spec) by exact E.
    unfold dict_keys; rewrite map_app; cbn. apply NoDup_snoc; assumption.
Qed.

Lemma dict_get_in_nodup {K V} (eqb : K -> K -> bool)
  (eqb_spec : forall x y, reflect (x = y) (eqb x y)) (d : list (K * V)) k v :
  NoDup (dict_keys d) -> In (k, v) d -> dict_get eqb d k = Some v.
Proof.
  unfold dict_keys; induction d as [|[k' v'] d IH]; cbn; intros Hn Hi; [tauto|].
  inversion_clear Hn as [|? ? Hni Hn']. destruct Hi as [Heq|Hi].
  - inversion Heq; subst. destruct (eqb_spec k k); congruence.
  - destruct (eqb_spec k' k) as [->|]; [|auto].
    exfalso; apply Hni. apply (in_map fst) in Hi; exact Hi.
Qed.

(** ** Stable sort by key *)

Section Sort.
  Context {A : Type} (leb : A -> A -> bool).

  (** Insert [x] before the first element that is strictly greater than... the
      first [y] with [leb x y]; used from the right, so equal keys keep their order. *)
  Fixpoint insert_sorted (x : A) (l : list A) : list A :=
    match l with
    | [] => [x]
    | y :: t => if leb x y then x :: l else y :: insert_sorted x t
    end.

  Definition stable_sort (l : list A) : list A := fold_right insert_sorted [] l.

  Definition le x y := leb x y = true.

  Hypothesis leb_total : forall x y, leb x y = true \/ leb y x = true.
  Hypothesis leb_trans : forall x y z, leb x y = true -> leb y z = true -> leb x z = true.

  Lemma insert_sorted_perm x l : Permutation (x :: l) (insert_sorted x l).
  Proof.
    induction l as [|y t IH]; cbn; [reflexivity|].
    destruct (leb x y); [reflexivity|].
    rewrite perm_swap. constructor; exact IH.
  Qed.

  Lemma stable_sort_perm l : Permutation l (stable_sort l).
  Proof.
    induction l as [|x t IH]; cbn; [reflexivity|].
    rewrite <- insert_sorted_perm. constructor; exact IH.
  Qed.

  Lemma insert_sorted_sorted x l :
    StronglySorted le l -> StronglySorted le (insert_sorted x l).
  Proof.
    induction l as [|y t IH]; cbn; intros Hs.
    - repeat constructor.
    - inversion_clear Hs as [|? ? Ht Hy].
      destruct (leb x y) eqn:E.
      + constructor; [constructor; assumption|]. constructor; [exact E|].
        eapply Forall_impl; [|exact Hy]. intros z Hz; eapply leb_trans; eauto.
      + constructor; [auto|].
        assert (Hyx : leb y x = true) by (destruct (leb_total x y); congruence).
        eapply Permutation_Forall; [apply insert_sorted_perm|].
        constructor; [exact Hyx|exact Hy].
  Qed.

  Lemma stable_sort_sorted l : StronglySorted le (stable_sort l).
  Proof. induction l as [|x t IH]; cbn; [constructor|apply insert_sorted_sorted; exact IH]. Qed.

  (** Stability: for every key class, the elements of the class keep their order. *)
  Definition same_key x y := leb x y && leb y x.

  Lemma insert_sorted_filter_same k x l :
    same_key k x = true ->
    StronglySorted le l ->
    filter (same_key k) (insert_sorted x l) = x :: filter (same_key k) l.
  Proof.
    intros Hk; induction l as [|y t IH]; cbn; intros Hs.
    - rewrite Hk; reflexivity.
    - inversion_clear Hs as [|? ? Ht Hy].
      destruct (leb x y) eqn:E; cbn.
      + rewrite Hk; reflexivity.
      + assert (same_key k y = false) as ->.
        { unfold same_key in *. apply andb_prop in Hk as [H1 H2].
          destruct (leb k y) eqn:Eky; cbn; [|reflexivity].
          destruct (leb y k) eqn:Eyk; [|reflexivity].
          rewrite (leb_trans x k y) in E; congruence. }
        apply IH; exact Ht.
  Qed.

  Lemma insert_sorted_filter_other k x l :
    same_key k x = false ->
    filter (same_key k) (insert_sorted x l) = filter (same_key k) l.
  Proof.
    intros Hk; induction l as [|y t IH]; cbn.
    - rewrite Hk; reflexivity.
    - destruct (leb x y); cbn; [rewrite Hk; reflexivity|].
      destruct (same_key k y); rewrite IH; reflexivity.
  Qed.

  Lemma stable_sort_stable k l :
    filter (same_key k) (stable_sort l) = filter (same_key k) l.
  Proof.
    induction l as [|x t IH]; [reflexivity|].
    change (stable_sort (x :: t)) with (insert_sorted x (stable_sort t)).
    destruct (same_key k x) eqn:E.
    - rewrite insert_sorted_filter_same by (auto using stable_sort_sorted).
      cbn [filter]. rewrite E, IH; reflexivity.
    - rewrite insert_sorted_filter_other by exact E.
      cbn [filter]. rewrite E. exact IH.
  Qed.

  Lemma stable_sort_length l : length (stable_sort l) = length l.
  Proof. apply Permutation_length; symmetry; apply stable_sort_perm. Qed.

  Lemma stable_sort_in x l : In x (stable_sort l) <-> In x l.
  Proof.
    split; apply Permutation_in; [symmetry|]; apply stable_sort_perm.
  Qed.

  (** A sorted list is unchanged. *)
  Lemma stable_sort_id l : StronglySorted le l -> stable_sort l = l.
  Proof.
    induction l as [|x t IH]; intros Hs; [reflexivity|].
    inversion_clear Hs as [|? ? Ht Hx].
    change (stable_sort (x :: t)) with (insert_sorted x (stable_sort t)).
    rewrite IH by exact Ht. destruct t as [|y t]; [reflexivity|].
    inversion_clear Hx as [|? ? Hxy]. cbn. rewrite Hxy. reflexivity.
  Qed.
End Sort.

(** First element satisfying a predicate: [next(filter(f, l))]. *)
Definition find_first {A} (f : A -> bool) (l : list A) : option A := find f l.

Lemma drop_while_app_stop {A} (f : A -> bool) (l r : list A) x :
  forallb f l = true -> f x = false -> drop_while f (l ++ x :: r) = x :: r.
Proof.
  induction l as [|a l IH]; cbn; intros H Hx; [rewrite Hx; reflexivity|].
  apply andb_prop in H as [-> H]. auto.
Qed.

Lemma drop_while_all {A} (f : A -> bool) (l : list A) :
  forallb f l = true -> drop_while f l = [].
Proof.
  induction l as [|a l IH]; cbn; intros H; [reflexivity|].
  apply andb_prop in H as [-> H]; auto.
Qed.

Lemma drop_while_split {A} (f : A -> bool) (l : list A) :
  exists p, l = p ++ drop_while f l /\ forallb f p = true /\
            match drop_while f l with [] => True | x :: _ => f x = false end.
Proof.
  induction l as [|a l IH]; cbn.
  - exists []; auto.
  - destruct (f a) eqn:E.
    + destruct IH as (p & Hp & Hf & Hx). exists (a :: p); cbn; rewrite E, Hf.
      split; [congruence|auto].
    + exists []; cbn; auto.
Qed.

Lemma rdrop_while_split {A} (f : A -> bool) (l : list A) :
  exists q, l = rdrop_while f l ++ q /\ forallb f q = true /\
            (rdrop_while f l = [] \/ exists p x, rdrop_while f l = p ++ [x] /\ f x = false).
Proof.
  unfold rdrop_while. destruct (drop_while_split f (rev l)) as (p & Hp & Hf & Hx).
  exists (rev p). split; [|split].
  - rewrite <- rev_app_distr, <- Hp, rev_involutive; reflexivity.
  - apply forallb_forall; intros x Hin. rewrite forallb_forall in Hf.
    apply Hf. apply in_rev; exact Hin.
  - destruct (drop_while f (rev l)) as [|x t] eqn:E; [left; reflexivity|].
    right. exists (rev t), x. cbn; auto.
Qed.

Lemma forallb_app' {A} (f : A -> bool) l1 l2 :
  forallb f (l1 ++ l2) = forallb f l1 && forallb f l2.
Proof. apply forallb_app. Qed.
