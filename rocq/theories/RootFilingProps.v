(** C122: in a filing every network has a root, and get_root() gives it if there is just one. *)
From Coq Require Import QArith Permutation.
From Verif Require Import Base QNameModel ErrBase ErrTable ErrModel CtxModel NetModel NetSpec NetProofs NetLinkProofs NetCombineProofs NetProps NetRootProps.
From Verif Require Import LinkModel LinkSpec LinkProofs LinkLoopProofs LinkNetProofs LinkDocProofs.
From Verif Require FilingModel FilingSpec FilingProofs FilingStages FilingProps FilingCalcProps ArcFilingProps
  InlineModel InlineFilingModel InlineFilingProofs InlineFilingProps InlineNetProps CtxProps.
Local Open Scope nat_scope.
Local Opaque insert create.

(** ** Specification *)

(** Asking for the root: the network has a root, and if it has just one, this is the answer and everything is below
    it; otherwise the answer is the documented error. *)
Definition has_root (h : heap) (roots : list nat) : Prop :=
  (exists r, In r roots) /\
  (forall r, get_root roots = Ok r -> roots = [r] /\ forall r' n, In r' roots -> reach h r' n -> reach h r n) /\
  (forall e, get_root roots = Raise e -> e = ValueError /\ 1 < length roots).

Lemma nonempty_root h roots : roots <> [] -> has_root h roots.
Proof.
  intros Hne. unfold has_root, get_root. destruct roots as [|r [|r' rest]]; [congruence| |]; cbn [length Nat.ltb Nat.leb].
  - split; [exists r; left; reflexivity|]. split; [|discriminate]. intros r0 E. injection E as <-. split; [reflexivity|]. intros r' n [<-|[]] Hr. exact Hr.
  - split; [exists r; left; reflexivity|]. split; [discriminate|]. intros e E. injection E as <-. split; [reflexivity|lia].
Qed.

Section Assembled.
Variable element_str : xml -> str.
Variable number : str -> Q.
Variable trees : list (str * xml).
Variables (es es1 later : repo xml) (notes : list CompModel.network) (scopes : list scope).
Variable f : FilingModel.filing.
Hypothesis A : FilingStages.assembled element_str number trees es es1 later notes scopes f.
Hypothesis Husual : all_usual (dict_values trees).

Lemma root_of w : In w (FilingModel.fl_nets f) -> has_root (ls_heap (FilingModel.fl_links f)) (w_roots w).
Proof.
  intros Hw. apply nonempty_root.
  destruct (FilingStages.f_networks _ _ _ _ _ _ _ _ _ A) as (eo & ro & fu & sh & es3 & Ho & Hsh & H).
  destruct (filing_runs element_str number _ eo ro Ho fu sh _ Husual es3 _ _ H) as (rs & d & O & B & N & G & C & _ & _).
  assert (Hraw : forall r w0, In r rs -> In w0 (nets_of r) -> exists n o, In n (w_roots w0) /\ object (heap_of rs) n = Some o).
  { intros r w0 Hr H0. unfold nets_of in H0. apply in_map_iff in H0 as (net & <- & Hnet). cbn [w_roots].
    pose proof (O r Hr) as (e0 & e1 & e2 & eo' & ro' & dups & _ & Hro & _ & _ & Hp).
    pose proof (proj1 (C21_networks _ _ _ _ _ _ _ _ Hp) net Hnet) as Hne. destruct net as [|m net]; [congruence|].
    destruct (proj2 (networks_nodup _ _ _ _ _ _ _ _ _ Hp Hro Hnet) m (or_introl eq_refl)) as (x & Ex).
    exists (r_base r + m), (o_key (n_obj x)). split; [left; reflexivity|].
    rewrite (object_at rs B r m Hr) by (apply nth_error_Some; congruence). unfold object. rewrite Ex. reflexivity. }
  destruct (combined_full element_str number _ rs B O fu sh Hsh d N G _ _ C) as (ls & _ & _ & Hin & F).
  apply Hin in Hw as [Hw|(r & Hr & Hw & _)].
  - destruct (Forall2_in_r _ _ _ _ F Hw) as (g & Hg & _ & _ & S & _).
    destruct (in_groups d N (dict_roles rs d N G) g Hg) as [Hne Hmem]. destruct g as [|w0 g]; [congruence|].
    destruct (Hmem w0 (or_introl eq_refl)) as [_ Hm]. destruct (proj1 (Hm w0) (or_introl eq_refl)) as (Hd & _).
    apply (dict_nets rs d N G) in Hd as (r & Hr & H0). destruct (Hraw r w0 Hr H0) as (n & o & Hn & Hno).
    assert (Hs : shows (heap_of rs) (concat (map w_roots (w0 :: g))) o).
    { exists n, n. split; [cbn; apply in_app_iff; left; exact Hn|]. split; [constructor|exact Hno]. }
    apply S in Hs as (r' & _ & Hr' & _). intros E. rewrite E in Hr'. destruct Hr'.
  - destruct (Hraw r w Hr Hw) as (n & _ & Hn & _). intros E. rewrite E in Hn. destruct Hn.
Qed.
End Assembled.

(** ** Theorems *)

Theorem C122_root parse_date element_str number trees es f : FilingProps.reads parse_date element_str number trees es f ->
  all_usual (dict_values trees) -> forall w, In w (FilingModel.fl_nets f) -> has_root (ls_heap (FilingModel.fl_links f)) (w_roots w).
Proof. intros H Hu. destruct (FilingProps.f_assembled _ _ _ _ _ _ H) as (es1 & st & A & _). exact (root_of _ _ _ _ _ _ _ _ _ A Hu). Qed.
Theorem C122_inline_root e tostring parse_date py_float era_valid element_str number trees es il :
  InlineFilingProofs.reads_inline e tostring parse_date py_float era_valid element_str number trees es il -> let f := InlineFilingModel.il_filing il in
  all_usual (dict_values (InlineFilingProofs.plain_trees trees)) ->
  forall w, In w (FilingModel.fl_nets f) -> has_root (ls_heap (FilingModel.fl_links f)) (w_roots w).
Proof. intros H f Hu. destruct (InlineNetProps.stages _ _ _ _ _ _ _ _ _ _ H) as (es1 & later & A). exact (root_of _ _ _ _ _ _ _ _ _ A Hu). Qed.

(** The filing of C118 meets the hypotheses and has networks. *)
Example C122_example : all_usual (dict_values ArcFilingProps.m_trees) /\
  exists f, FilingProps.reads CtxProps.iso_date (fun _ => []) FilingCalcProps.k_number ArcFilingProps.m_trees [] f /\ length (FilingModel.fl_nets f) = 3.
Proof.
  split; [exact (proj1 ArcFilingProps.C118_example_hypotheses)|]. destruct ArcFilingProps.C118_example as (f & H & _ & S). exists f. split; [exact H|].
  apply (f_equal (@length _)) in S. rewrite map_length in S. exact S.
Qed.
Print Assumptions C122_root.
Print Assumptions C122_inline_root.
