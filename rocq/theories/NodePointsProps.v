(** C121: points_to() says which of the accessors of a node of a network answers. *)
From Coq Require Import QArith Permutation.
From Verif Require Import Base QNameModel ErrBase ErrTable ErrModel CtxModel NetModel NetSpec NetProofs NetLinkProofs NetProps.
From Verif Require LinkModel LinkSpec LinkNetProofs FilingModel FilingSpec FilingProofs FilingStages FilingProps FilingCalcProps NodeAttrProps ArcFilingProps
  NumModel DateModel TextModel FootModel InlineModel InlineSpec InlineFilingModel InlineFilingSpec InlineFilingProofs InlineFilingProps InlineNetProps CtxProps.
Local Open Scope nat_scope.
Local Opaque insert create.

(** ** Model *)

(** isinstance(…, IResource) *)
Definition is_resource (t : otype) : bool := match t with OLabel | OReference | OFootnote => true | _ => false end.
(** the [if not isinstance(…): raise ValueError] of the accessors below *)
Definition guarded (b : bool) (x : node) : res obj := if b then Ok (n_obj x) else Raise ValueError.

(** networks/*_network_node.py get_report_element: presentation 60-64, calculation 60-65, definition 49-50, label 46-50, reference 46-50, footnote 48-54 *)
Definition get_report_element (k : kind) (x : node) : res obj :=
  match k with
  | KPresentation | KCalculation | KLogicalDefinition | KPhysicalDefinition => Ok (n_obj x)
  | KLabel | KReference | KFootnote => guarded (is_element (o_type (n_obj x))) x
  end.
(** networks/*_network_node.py get_resource: presentation 66-72, calculation 67-72, definition 52-53, label 52-55, reference 52-55, footnote 56-61 *)
Definition get_resource (k : kind) (x : node) : res obj :=
  match k with
  | KPresentation | KCalculation | KLogicalDefinition | KPhysicalDefinition => Raise ValueError
  | KLabel => guarded (match o_type (n_obj x) with OLabel => true | _ => false end) x
  | KReference | KFootnote => guarded (is_resource (o_type (n_obj x))) x
  end.
(** networks/*_network_node.py get_fact: presentation 74-80, calculation 74-79, definition 55-56, label 57-58, reference 57-58, footnote 63-68 *)
Definition get_fact (k : kind) (x : node) : res obj :=
  match k with
  | KFootnote => guarded (match o_type (n_obj x) with OFact => true | _ => false end) x
  | _ => Raise ValueError
  end.
(** networks/*_network_node.py points_to: presentation 82-86, calculation 81-85, definition 58-59, label 60-68, reference 60-68, footnote 70-80 *)
Definition points_to (k : kind) (x : node) : res str :=
  let t := o_type (n_obj x) in
  match k with
  | KPresentation | KCalculation | KLogicalDefinition | KPhysicalDefinition => Ok (u "report element")
  | KLabel => if is_element t then Ok (u "report element")
              else match t with OLabel => Ok (u "resource") | _ => Raise ValueError end
  | KReference => if is_element t then Ok (u "report element")
                  else if is_resource t then Ok (u "resource") else Raise ValueError
  | KFootnote => if is_element t then Ok (u "report element")
                 else if is_resource t then Ok (u "resource")
                 else match t with OFact => Ok (u "fact") | _ => Raise ValueError end
  end.

(** ** Specification *)

(** What an object is called. *)
Inductive called : otype -> str -> Prop :=
| called_concept : called OConcept (u "report element")
| called_element : called OElement (u "report element")
| called_label : called OLabel (u "resource")
| called_reference : called OReference (u "resource")
| called_footnote : called OFootnote (u "resource")
| called_fact : called OFact (u "fact").
(** An accessor for objects that are called so: it gives the object of the node or says that it is not one. *)
Definition answers (get : kind -> node -> res obj) (name : string) (k : kind) (x : node) : Prop :=
  (called (o_type (n_obj x)) (u name) -> get k x = Ok (n_obj x)) /\
  (~ called (o_type (n_obj x)) (u name) -> get k x = Raise ValueError).
Definition points (k : kind) (x : node) : Prop :=
  (exists s, points_to k x = Ok s /\ called (o_type (n_obj x)) s) /\
  answers get_report_element "report element" k x /\ answers get_resource "resource" k x /\ answers get_fact "fact" k x.

(** ** Theorems *)

Lemma accepted_points k x : accepts k (o_type (n_obj x)) = None -> points k x.
Proof.
  assert (D : u "report element" <> u "resource" /\ u "report element" <> u "fact" /\ u "resource" <> u "fact") by (repeat split; vm_compute; discriminate).
  destruct D as (D1 & D2 & D3). unfold points, answers, points_to, get_report_element, get_resource, get_fact, guarded.
  destruct (n_obj x) as [key t]. cbn [o_type].
  assert (C : forall s, called t s -> s = match t with OConcept | OElement => u "report element" | OLabel | OReference | OFootnote => u "resource" | OFact => u "fact" end)
    by (intros s Hs; destruct Hs; reflexivity).
  assert (C' : called t (match t with OConcept | OElement => u "report element" | OLabel | OReference | OFootnote => u "resource" | OFact => u "fact" end))
    by (destruct t; constructor).
  intros Ha. destruct k, t; try discriminate Ha; cbn [is_element is_resource] in *;
    (split; [eexists; split; [reflexivity|exact C']|]); repeat split; intros Hc; try reflexivity;
    try (exfalso; apply C in Hc; congruence); try (exfalso; exact (Hc C')).
Qed.

(** In a network made of an extended link every node points to what its locator or resource stands for, and is
    called accordingly. *)
Theorem C121_link k eo ro arcs locs h nets dups n x : parse_link k eo ro arcs locs = Ok (h, nets, dups) -> nth_error h n = Some x ->
  points k x /\ exists l, made_for h locs n x l /\ l_obj l = Some (n_obj x).
Proof.
  intros H Hx. destruct (link_obj _ _ _ _ _ _ _ _ _ _ H Hx) as (l & Hm & Ho). split; [|eauto].
  apply parse_link_inv in H as (Ha & _). apply accepted_points, (Ha l); [eapply nth_error_In, Hm|exact Ho].
Qed.

Section Assembled.
Variable element_str : xml -> str.
Variable number : str -> Q.
Variable trees : list (str * xml).
Variables (es es1 later : repo xml) (notes : list CompModel.network) (scopes : list scope).
Variable f : FilingModel.filing.
Hypothesis A : FilingStages.assembled element_str number trees es es1 later notes scopes f.
Hypothesis Husual : LinkSpec.all_usual (dict_values trees).
Lemma points_of w r n y : In w (FilingModel.fl_nets f) -> In r (LinkModel.w_roots w) -> reach (LinkModel.ls_heap (FilingModel.fl_links f)) r n ->
  nth_error (LinkModel.ls_heap (FilingModel.fl_links f)) n = Some y -> points (LinkModel.w_kind w) y.
Proof.
  intros Hw Hr Hn Hy.
  destruct (ArcFilingProps.node_run _ _ _ _ _ _ _ _ _ A Husual w r n y Hw Hr Hn Hy) as (fi & r' & x & Hok & _ & _ & _ & Ek & Hx & Eb & _).
  destruct Hok as (e0 & e1 & e2 & eo & ro & dups & _ & _ & _ & _ & Hp). rewrite Ek in Hp.
  assert (Eo : n_obj x = n_obj y) by exact (f_equal n_obj Eb).
  destruct (C121_link _ _ _ _ _ _ _ _ _ _ Hp Hx) as [P _]. revert P.
  unfold points, answers, points_to, get_report_element, get_resource, get_fact, guarded. rewrite Eo. auto.
Qed.
End Assembled.

(** So do the nodes of the networks of a filing, whether or not they were combined. *)
Theorem C121_filing parse_date element_str number trees es f : FilingProps.reads parse_date element_str number trees es f ->
  LinkSpec.all_usual (dict_values trees) -> forall w r n y, In w (FilingModel.fl_nets f) -> In r (LinkModel.w_roots w) ->
  reach (LinkModel.ls_heap (FilingModel.fl_links f)) r n -> nth_error (LinkModel.ls_heap (FilingModel.fl_links f)) n = Some y -> points (LinkModel.w_kind w) y.
Proof. intros H Hu. destruct (FilingProps.f_assembled _ _ _ _ _ _ H) as (es1 & st & A & _). exact (points_of _ _ _ _ _ _ _ _ _ A Hu). Qed.
Theorem C121_inline e tostring parse_date py_float era_valid element_str number trees es il :
  InlineFilingProofs.reads_inline e tostring parse_date py_float era_valid element_str number trees es il -> let f := InlineFilingModel.il_filing il in
  LinkSpec.all_usual (dict_values (InlineFilingProofs.plain_trees trees)) -> forall w r n y, In w (FilingModel.fl_nets f) -> In r (LinkModel.w_roots w) ->
  reach (LinkModel.ls_heap (FilingModel.fl_links f)) r n -> nth_error (LinkModel.ls_heap (FilingModel.fl_links f)) n = Some y -> points (LinkModel.w_kind w) y.
Proof. intros H f Hu. destruct (InlineNetProps.stages _ _ _ _ _ _ _ _ _ _ H) as (es1 & later & A). exact (points_of _ _ _ _ _ _ _ _ _ A Hu). Qed.

(** ** Examples *)

(** A fact with a footnote. *)
Definition note_locs : list loc := [Loc (u "f") (Some (Obj 1 OFact)); Loc (u "n") (Some (Obj 2 OFootnote))].
Example C121_example : exists x y, parse_link KFootnote (fun l => l) (fun l => l) [arc' "f" "n" "r" 1 1] note_locs = Ok ([x; y], [[0]], []) /\
  points_to KFootnote x = Ok (u "fact") /\ get_fact KFootnote x = Ok (Obj 1 OFact) /\ get_resource KFootnote x = Raise ValueError /\
  points_to KFootnote y = Ok (u "resource") /\ get_resource KFootnote y = Ok (Obj 2 OFootnote) /\ get_report_element KFootnote y = Raise ValueError.
Proof. do 2 eexists. split; [reflexivity|]. repeat split. Qed.
(** Without the test of the factory a node of a label network could point to what it has no name for. *)
Example C121_needs_test : points_to KLabel (Node 0 (Obj 1 OFact) [] 1 0 None []) = Raise ValueError /\
  parse_link KLabel (fun l => l) (fun l => l) [] note_locs = Raise TypeError.
Proof. split; reflexivity. Qed.
(** The filing of C118 meets the hypotheses of C121_filing; its first network has a node. *)
Example C121_example_hypotheses : LinkSpec.all_usual (dict_values ArcFilingProps.m_trees) /\
  exists f, FilingProps.reads CtxProps.iso_date (fun _ => []) FilingCalcProps.k_number ArcFilingProps.m_trees [] f /\ FilingModel.fl_nets f <> [].
Proof.
  split; [exact (proj1 ArcFilingProps.C118_example_hypotheses)|]. destruct ArcFilingProps.C118_example as (f & H & _ & S). exists f. split; [exact H|].
  intros E. rewrite E in S. discriminate S.
Qed.
Print Assumptions C121_link.
Print Assumptions C121_filing.
Print Assumptions C121_inline.
