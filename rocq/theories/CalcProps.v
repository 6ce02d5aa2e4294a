(** C23 and C24: balance and aggregation consistency of calculation networks. *)
From Verif Require Import Base NetModel QNameModel CtxModel CtxSpec CtxProofs CtxExactProofs CtxProps CalcModel CalcSpec CalcProofs.
From Verif Require QNameProofs.
From Coq Require Import Lia SpecFloat.
Local Open Scope nat_scope.

(** * C23 *)

(** On trees the check answers, and it answers [true] exactly if all nodes have a balance and no arc
    has a weight with the wrong sign.  Weight zero is not wrong, see [C23_zero_refuted]. *)
Theorem C23_balance_partial balance_of h roots rank fuel :
  ranked h rank -> (forall i, In i roots -> (rank i < fuel)%nat) ->
  exists b, is_balance_consistent balance_of fuel h roots = Ok b /\
    (b = true <-> balanced (lenient_arc balance_of h) balance_of h roots).
Proof.
  intros Hr Hf. destruct (balance_decides balance_of h rank fuel roots Hr Hf) as [[b Hb] H].
  exists b. split; [exact Hb|]. rewrite <- H, Hb. split; congruence.
Qed.

(** Without zero weights this is the documented rule. *)
Theorem C23_balance_nonzero balance_of h roots rank fuel :
  ranked h rank -> (forall i, In i roots -> (rank i < fuel)%nat) ->
  (forall p c, in_network h roots p -> In c (get_children h p) -> ~ (get_weight h c == 0)%Q) ->
  exists b, is_balance_consistent balance_of fuel h roots = Ok b /\
    (b = true <-> balanced (documented_arc balance_of h) balance_of h roots).
Proof.
  intros Hr Hf Hz. destruct (C23_balance_partial balance_of h roots rank fuel Hr Hf) as (b & Hb & H).
  exists b. split; [exact Hb|]. rewrite H. split; intros [H1 H2]; (split; [exact H1|]); intros p c Hp Hc;
    destruct (H2 p c Hp Hc) as (bp & bc & E1 & E2 & H3); exists bp, bc; (split; [exact E1|]); (split; [exact E2|]);
    specialize (Hz p c Hp Hc).
  - destruct H3 as [[E H3]|[E H3]]; [left|right]; (split; [exact E|]); apply Qle_lteq in H3 as [H3|H3]; try exact H3.
    + exfalso. apply Hz. symmetry. exact H3.
    + exfalso. apply Hz. exact H3.
  - destruct H3 as [[E H3]|[E H3]]; [left|right]; (split; [exact E|]); apply Qlt_le_weak, H3.
Qed.

(** On any graph the answer [true] is right, and below a cycle it is never given. *)
Theorem C23_balance_sound balance_of h roots fuel :
  is_balance_consistent balance_of fuel h roots = Ok true ->
  balanced (lenient_arc balance_of h) balance_of h roots.
Proof. apply balance_sound. Qed.

Theorem C23_cycle balance_of h roots fuel (P : nat -> Prop) i :
  (forall p, P p -> exists c, In c (get_children h p) /\ P c) -> In i roots -> P i ->
  is_balance_consistent balance_of fuel h roots <> Ok true.
Proof.
  intros HP Hi Pi H. unfold is_balance_consistent in H. rewrite all_ok_true in H. specialize (H i Hi).
  clear Hi. revert i Pi H. induction fuel as [|fuel IH]; intros i Pi; cbn [balance_subtree]; [discriminate|].
  destruct (node_balance balance_of h i) as [pb|] eqn:E; [|discriminate]. intros H.
  rewrite (balance_children_true _ _ _ i) in H by exact E.
  destruct (HP i Pi) as (c & Hc & Pc). apply (IH c Pc), H, Hc.
Qed.

Definition leaf (k : nat) (w : Q) (kids : list nat) : node := Node k (Obj k OConcept) [] 1%Q w None kids.
Arguments leaf k w%Q kids.
(** Profit (credit) = income (credit) - expenses (debit); expenses = wages (debit) + tax (debit) *)
Definition s_heap : heap := [leaf 0 1 [1; 2]; leaf 1 1 []; leaf 2 (-1) [3; 4]; leaf 3 1 []; leaf 4 1 []].
Definition s_balance (o : obj) : option balance := Some (if Nat.ltb (o_key o) 2 then Credit else Debit).
Definition s_rank (i : nat) : nat := 5 - i.

Lemma s_ranked : ranked s_heap s_rank.
Proof.
  intros p c H. do 5 (destruct p as [|p]; [cbn in H; repeat (destruct H as [<-|H]; [cbn; lia|]); destruct H|]).
  unfold get_children in H. cbn in H. destruct p; destruct H.
Qed.
Example C23_sample : is_balance_consistent s_balance 6 s_heap [0] = Ok true /\
  ranked s_heap s_rank /\ (forall i, In i [0] -> (s_rank i < 6)%nat) /\
  (forall p c, in_network s_heap [0] p -> In c (get_children s_heap p) -> ~ (get_weight s_heap c == 0)%Q).
Proof.
  split; [reflexivity|]. split; [exact s_ranked|]. split; [intros i [<-|[]]; cbn; lia|].
  intros p c _ H. do 5 (destruct p as [|p]; [cbn in H; repeat (destruct H as [<-|H]; [cbn; discriminate|]); destruct H|]).
  unfold get_children in H. cbn in H. destruct p; destruct H.
Qed.
Example C23_sample_wrong :
  is_balance_consistent s_balance 6 [leaf 0 1 [1; 2]; leaf 1 1 []; leaf 2 1 [3; 4]; leaf 3 1 []; leaf 4 1 []] [0]
  = Ok false.
Proof. reflexivity. Qed.
(** A node that is its own child. *)
Example C23_sample_cycle :
  is_balance_consistent s_balance 50 [leaf 0 1 [0]] [0] = Raise OutOfFuel /\
  (forall p, p = 0 -> exists c, In c (get_children [leaf 0 1 [0]] p) /\ c = 0).
Proof. split; [reflexivity|]. intros p ->. exists 0. split; [left; reflexivity|reflexivity]. Qed.

(** A weight of zero between equal balances is neither positive nor negative, yet consistent. *)
Theorem C23_zero_refuted : exists balance_of h roots p c,
  is_balance_consistent balance_of 3 h roots = Ok true /\
  in_network h roots p /\ In c (get_children h p) /\ ~ documented_arc balance_of h p c.
Proof.
  exists s_balance, [leaf 0 1 [1]; leaf 1 0 []], [0], 0, 1. split; [reflexivity|].
  split; [apply in_root; left; reflexivity|]. split; [left; reflexivity|].
  intros (bp & bc & _ & _ & [[_ H]|[_ H]]); cbn in H; apply (Qlt_irrefl 0), H.
Qed.

(** One concept without balance and without children: no arc is wrong, yet the answer is [false]. *)
Theorem C23_single_refuted : exists balance_of h roots,
  is_balance_consistent balance_of 3 h roots = Ok false /\
  forall p c, in_network h roots p -> In c (get_children h p) -> documented_arc balance_of h p c.
Proof.
  exists (fun _ => None), [leaf 0 1 []], [0]. split; [reflexivity|].
  intros p c _ H. exfalso. destruct p as [|[|p]]; cbn in H; destruct H.
Qed.

Print Assumptions C23_balance_partial.
Print Assumptions C23_balance_nonzero.
Print Assumptions C23_balance_sound.
Print Assumptions C23_cycle.
Print Assumptions C23_zero_refuted.
Print Assumptions C23_single_refuted.

(** * C24 *)

(** Facts whose contexts are made with [add_characteristic] are sound. *)
Theorem C24_facts_sound id xs v i :
  (exists x, In x xs /\ aspect_of x = a_concept) ->
  (forall x, In x xs -> aspect_of x = a_concept -> exists e, x = ChConcept e) ->
  sound_fact (Fact (fold_left add_characteristic xs (new_context id)) v i).
Proof.
  intros Hex Hall. destruct (C25_contexts id xs) as (_ & _ & _ & Ha & Hg & Hh). split; cbn [f_context].
  - intros a. apply ctx_ok_aspects, fold_ok, new_ok.
  - pose proof (proj2 (Ha a_concept) Hex) as Hin. apply ctx_ok_aspects in Hin; [|apply fold_ok, new_ok].
    change (u "concept") with a_concept.
    destruct (get_characteristic _ a_concept) as [x|] eqn:E; [|congruence].
    apply Hg in E. destruct E as (pre & post & E & Hx & _).
    destruct (Hall x) as [e ->]; [rewrite E; apply in_or_app; right; left; reflexivity|exact Hx|].
    exists e. reflexivity.
Qed.

(** Characteristics that are taken for the same are the same entity, period, unit, dimension and value. *)
Theorem C24_same_value x y : plain_value x -> plain_value y -> same_value x y ->
  match x, y with
  | ChEntity i s, ChEntity i' s' => i = i' /\ s = s'
  | ChPeriod p, ChPeriod p' => p = p'
  | ChUnit n _ _, ChUnit n' _ _ => n = n'
  | ChExplicit _ m a, ChExplicit _ m' a' => e_name m = e_name m' /\ a = a'
  | ChTyped d v a, ChTyped d' v' a' => e_name d = e_name d' /\ v = v' /\ a = a'
  | _, _ => False
  end.
Proof.
  intros Hx Hy H. revert Hx Hy. destruct H; intros Hx Hy; auto.
  - cbn [plain_value] in *. change (u "{" ++ s ++ u "}" ++ i) with (ch "{" :: s ++ ch "}" :: i) in H.
    change (u "{" ++ s' ++ u "}" ++ i') with (ch "{" :: s' ++ ch "}" :: i') in H. injection H as H.
    destruct (QNameProofs.split_unique (ch "}") s i s' i' Hx Hy H) as [A B]. split; [exact B|exact A].
  - apply period_str_inj; assumption.
Qed.

Example C24_same_value_case : plain_value (ChEntity (u "E1") (u "urn:s1")) /\ plain_value (ChPeriod (Instant (Date 2020 12 31))) /\
  ~ same_value (ChEntity (u "E1") (u "urn:s1")) (ChEntity (u "E1") (u "urn:s2")).
Proof.
  split; [|split].
  - intros H. repeat (destruct H as [H|H]; [discriminate H|]). destruct H.
  - vm_compute. repeat split; discriminate.
  - intros H. inversion H as [? ? ? ? E| | | |]. discriminate E.
Qed.

Section C24.
Variable F : Type.
Variables (fadd fmul : F -> F -> F) (fzero : F) (feqb : F -> F -> bool).
Variable float_of : str -> option F.
Variable weight_of : Q -> F.
Variable name_of : obj -> qname.
Variables (facts : list fact) (h : heap) (roots : list nat) (rank : nat -> nat) (fuel : nat).
Local Notation check := (is_aggregation_consistent F fadd fmul fzero feqb float_of weight_of name_of facts fuel h roots).
Local Notation node_ok := (node_adds_up F fadd fmul fzero feqb float_of weight_of name_of facts h).

(** [true] exactly if at each visited node all facts are the weighted sums of their children; each
    child has exactly one fact with the characteristics of the fact above. *)
Theorem C24_aggregation_partial :
  (forall f, In f facts -> sound_fact f) -> ranked h rank -> (forall i, In i roots -> (rank i < fuel)%nat) ->
  (check = Ok true <-> forall i, visited name_of facts h roots i -> node_ok i).
Proof.
  intros Hs Hr Hf. split; [apply aggregation_sound; exact Hs|apply (aggregation_complete _ _ _ _ _ _ _ _ _ Hs _ rank); assumption].
Qed.

(** If all inner concepts have facts, this is said about all nodes of the network. *)
Theorem C24_aggregation_reported :
  (forall f, In f facts -> sound_fact f) -> ranked h rank -> (forall i, In i roots -> (rank i < fuel)%nat) ->
  (forall i, in_network h roots i -> get_children h i <> [] ->
     exists o f, get_object h i = Some o /\ In f facts /\ reports (name_of o) f) ->
  (check = Ok true <-> forall i, in_network h roots i -> node_ok i).
Proof.
  intros Hs Hr Hf Hall. rewrite (C24_aggregation_partial Hs Hr Hf).
  assert (Heq : forall i, visited name_of facts h roots i <-> in_network h roots i).
  { intros i; split.
    - induction 1 as [i Hi|p o f c Hp IH Ho Hf' Hr' Hc]; [apply in_root, Hi|eapply in_child; eassumption].
    - induction 1 as [i Hi|p c Hp IH Hc]; [apply visited_root, Hi|].
      destruct (Hall p Hp) as (o & f & Ho & Hf' & Hr'); [intros E; rewrite E in Hc; destruct Hc|].
      exact (visited_child _ _ _ _ p o f c IH Ho Hf' Hr' Hc). }
  split; intros H i Hi; apply H, Heq, Hi.
Qed.

(** [false] always comes with a fact that differs from the weighted sum of its children. *)
Theorem C24_false :
  (forall f, In f facts -> sound_fact f) -> check = Ok false ->
  exists i o f v vs, in_network h roots i /\ get_object h i = Some o /\ In f facts /\ reports (name_of o) f /\
    float_of (f_value f) = Some v /\ weighted F fmul float_of weight_of name_of facts h f (get_children h i) vs /\
    feqb v (fold_left fadd vs fzero) = false.
Proof.
  intros Hs H. apply aggregation_false in H as (i & Hi & o & f & v & vs & H); [|exact Hs].
  exists i, o, f, v, vs. split; [|exact H].
  clear -Hi. induction Hi as [i Hi|p o f c Hp IH Ho Hf' Hr' Hc]; [apply in_root, Hi|eapply in_child; eassumption].
Qed.

(** The only exception is ValueError. *)
Theorem C24_exceptions e :
  (forall f, In f facts -> sound_fact f) -> ranked h rank -> (forall i, In i roots -> (rank i < fuel)%nat) ->
  (forall p c, In c (get_children h p) -> get_object h c <> None) ->
  check = Raise e -> e = ValueError.
Proof. intros Hs Hr Hf Hk. apply (aggregation_exn _ _ _ _ _ _ _ _ _ Hs _ rank); assumption. Qed.
End C24.

(** ** Samples, with binary64 numbers *)

Definition f64 := spec_float.
Definition dbl (m : positive) (e : Z) : f64 := S754_finite false m e.
(** [float("0.1")] and so on; SpecFloat works with the canonical forms. *)
Definition s_numbers : list (str * f64) :=
  [(u "0.1", dbl 7205759403792794 (-56)); (u "0.2", dbl 7205759403792794 (-55));
   (u "0.3", dbl 5404319552844595 (-54));
   (u "1", dbl 4503599627370496 (-52)); (u "2", dbl 4503599627370496 (-51)); (u "3", dbl 6755399441055744 (-51))].
Definition s_float (s : str) : option f64 := dict_get str_eqb s_numbers s.
Definition s_weight (w : Q) : f64 :=
  if Qle_bool 0 w then dbl 4503599627370496 (-52) else S754_finite true 4503599627370496 (-52).
Definition s_check (facts : list fact) (fuel : nat) (h : heap) (roots : list nat) : res bool :=
  is_aggregation_consistent f64 (SFadd 53 1024) (SFmul 53 1024) (S754_zero false) SFeqb s_float s_weight
    (fun o => QName (u "urn:t") (u "t") [N.of_nat (o_key o + 65)]) facts fuel h roots.

Definition s_concept (k : nat) : element := Element (QName (u "urn:t") (u "t") [N.of_nat (k + 65)]) None KConcept k.
Definition s_period : characteristic := ChPeriod (Instant (Date 2020 12 31)).
Definition s_f (k : nat) (v : string) (more : list characteristic) : fact :=
  Fact (fold_left add_characteristic (ChConcept (s_concept k) :: s_period :: more) (new_context (u "c1"))) (u v) None.

(** A = B + C *)
Definition s_sum : heap := [leaf 0 1 [1; 2]; leaf 1 1 []; leaf 2 1 []].
Example C24_sample :
  s_check [s_f 0 "3" []; s_f 1 "1" []; s_f 2 "2" []] 3 s_sum [0] = Ok true /\
  s_check [s_f 0 "2" []; s_f 1 "1" []; s_f 2 "2" []] 3 s_sum [0] = Ok false.
Proof. split; vm_compute; reflexivity. Qed.
Example C24_sample_hypotheses :
  (forall f, In f [s_f 0 "3" []; s_f 1 "1" []; s_f 2 "2" []] -> sound_fact f) /\
  ranked s_sum (fun i => 2 - i) /\ (forall p c, In c (get_children s_sum p) -> get_object s_sum c <> None).
Proof.
  split; [|split].
  - intros f Hf. assert (Hc : exists k v, f = s_f k v []).
    { destruct Hf as [<-|[<-|[<-|[]]]]; eexists _, _; reflexivity. }
    destruct Hc as (k & v & ->). apply C24_facts_sound.
    + eexists; split; [left; reflexivity|reflexivity].
    + intros x [<-|[<-|[]]]; [eexists; reflexivity|discriminate].
  - intros p c H. do 3 (destruct p as [|p]; [cbn in H; repeat (destruct H as [<-|H]; [cbn; lia|]); destruct H|]).
    unfold get_children in H. cbn in H. destruct p; destruct H.
  - intros p c H. do 3 (destruct p as [|p]; [cbn in H; repeat (destruct H as [<-|H]; [cbn; discriminate|]); destruct H|]).
    unfold get_children in H. cbn in H. destruct p; destruct H.
Qed.

(** *** What the check gets wrong *)

(** Binary rounding: 0.3 = 0.1 + 0.2 is inconsistent. *)
Theorem C24_rounding_refuted :
  s_check [s_f 0 "0.3" []; s_f 1 "0.1" []; s_f 2 "0.2" []] 3 s_sum [0] = Ok false.
Proof. vm_compute. reflexivity. Qed.

(** Below a concept without facts nothing is checked: A = B, B = C + D with B = 1, C = 1, D = 2. *)
Theorem C24_skipped_refuted :
  s_check [s_f 1 "1" []; s_f 2 "1" []; s_f 3 "2" []] 4
    [leaf 0 1 [1]; leaf 1 1 [2; 3]; leaf 2 1 []; leaf 3 1 []] [0] = Ok true /\
  s_check [s_f 1 "1" []; s_f 2 "1" []; s_f 3 "2" []] 4
    [leaf 0 1 [1]; leaf 1 1 [2; 3]; leaf 2 1 []; leaf 3 1 []] [1] = Ok false.
Proof. split; vm_compute; reflexivity. Qed.

(** The fact of a child with one more dimension is in another context, yet it is added:
    A = 3 for the whole, C = 2 only for the member M. *)
Definition s_member_c : characteristic := ChExplicit (s_concept 20) (s_concept 21) (u "t:Axis").
Theorem C24_context_refuted :
  s_check [s_f 0 "3" []; s_f 1 "1" []; s_f 2 "2" [s_member_c]] 3 s_sum [0] = Ok true.
Proof. vm_compute. reflexivity. Qed.
(** And beside the right fact for the whole it makes the check raise. *)
Theorem C24_breakdown_refuted :
  s_check [s_f 0 "3" []; s_f 1 "1" []; s_f 2 "2" []; s_f 2 "1" [s_member_c]] 3 s_sum [0] = Raise ValueError.
Proof. vm_compute. reflexivity. Qed.
(** A child that is not reported makes it raise as well. *)
Theorem C24_missing_refuted :
  s_check [s_f 0 "1" []; s_f 1 "1" []] 3 s_sum [0] = Raise ValueError.
Proof. vm_compute. reflexivity. Qed.

Print Assumptions C24_facts_sound.
Print Assumptions C24_same_value.
Print Assumptions C24_aggregation_partial.
Print Assumptions C24_aggregation_reported.
Print Assumptions C24_false.
Print Assumptions C24_exceptions.
Print Assumptions C24_rounding_refuted.
Print Assumptions C24_skipped_refuted.
Print Assumptions C24_context_refuted.
Print Assumptions C24_breakdown_refuted.
Print Assumptions C24_missing_refuted.
