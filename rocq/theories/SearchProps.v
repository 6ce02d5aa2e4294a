(** Which elements a search finds, by their places in the document (C48, C56, C58): said apart from the model's own walk. *)
From Coq Require Import Sorting.
From Verif Require Import Base QNameModel CtxModel DtsModel ConceptModel.
Local Open Scope nat_scope.

(** The element at a place: the numbers of the children that lead to it *)
Inductive at_place (x : xml) : list nat -> xml -> Prop :=
| at_here : at_place x [] x
| at_child i k p y : nth_error (x_kids x) i = Some k -> at_place k p y -> at_place x (i :: p) y.
(** In the order of the document: an element before those in it, and these before those that follow it *)
Inductive comes_before : list nat -> list nat -> Prop :=
| cb_inside i p : comes_before [] (i :: p)
| cb_left i j p q : i < j -> comes_before (i :: p) (j :: q)
| cb_same i p q : comes_before p q -> comes_before (i :: p) (i :: q).
(** All the places below an element with what is there, in the order of the document *)
Definition in_order (x : xml) (l : list (list nat * xml)) : Prop :=
  StronglySorted comes_before (map fst l) /\ forall p y, In (p, y) l <-> p <> [] /\ at_place x p y.

Fixpoint places (x : xml) : list (list nat * xml) :=
  (fix go (l : list xml) (i : nat) : list (list nat * xml) :=
     match l with [] => [] | k :: r => ([i], k) :: map (fun e => (i :: fst e, snd e)) (places k) ++ go r (S i) end) (x_kids x) 0.
Definition places_of (l : list xml) (i : nat) : list (list nat * xml) :=
  (fix go (l : list xml) (i : nat) : list (list nat * xml) :=
     match l with [] => [] | k :: r => ([i], k) :: map (fun e => (i :: fst e, snd e)) (places k) ++ go r (S i) end) l i.
Lemma places_eq x : places x = places_of (x_kids x) 0.
Proof. destruct x; reflexivity. Qed.
Lemma places_of_cons k r i : places_of (k :: r) i = ([i], k) :: map (fun e => (i :: fst e, snd e)) (places k) ++ places_of r (S i).
Proof. reflexivity. Qed.
Definition below_of (l : list xml) : list xml :=
  (fix go (l : list xml) : list xml := match l with [] => [] | k :: r => k :: descendants k ++ go r end) l.
Lemma descendants_eq x : descendants x = below_of (x_kids x).
Proof. destruct x; reflexivity. Qed.

Fixpoint size (x : xml) : nat := S ((fix go (l : list xml) : nat := match l with [] => 0 | k :: r => size k + go r end) (x_kids x)).
Definition sizes (l : list xml) : nat := (fix go (l : list xml) : nat := match l with [] => 0 | k :: r => size k + go r end) l.
Lemma size_eq x : size x = S (sizes (x_kids x)).
Proof. destruct x; reflexivity. Qed.
Lemma xml_tree_ind (P : xml -> Prop) : (forall x, (forall k, In k (x_kids x) -> P k) -> P x) -> forall x, P x.
Proof.
  intros H. assert (G : forall n x, size x <= n -> P x).
  { induction n as [|n IH]; intros x L; [rewrite size_eq in L; lia|]. apply H. intros k Hk. apply IH. rewrite size_eq in L.
    assert (S : forall l, In k l -> size k <= sizes l). { induction l as [|a l IHl]; [intros []|]. intros [->|Q]; cbn [sizes]; [lia|]. specialize (IHl Q). fold (sizes l). lia. }
    specialize (S _ Hk). lia. }
  intros x. exact (G _ x (le_n _)).
Qed.

Lemma places_elements x : map snd (places x) = descendants x.
Proof.
  induction x as [x IH] using xml_tree_ind. rewrite places_eq, descendants_eq.
  assert (G : forall l i, (forall k, In k l -> map snd (places k) = descendants k) -> map snd (places_of l i) = below_of l).
  { induction l as [|k l IHl]; intros i H; [reflexivity|]. rewrite places_of_cons. cbn [map snd below_of]. fold (below_of l). f_equal.
    rewrite map_app. rewrite (map_map _ snd). change (map (fun e : list nat * xml => snd (i :: fst e, snd e)) (places k)) with (map snd (places k)). rewrite (H k (or_introl eq_refl)), IHl; [reflexivity|]. intros k' Hk'. apply H. right. exact Hk'. }
  apply G. exact IH.
Qed.
Lemma in_places x : forall p y, In (p, y) (places x) <-> p <> [] /\ at_place x p y.
Proof.
  induction x as [x IH] using xml_tree_ind. rewrite places_eq.
  assert (G : forall l i, (forall k, In k l -> forall p y, In (p, y) (places k) <-> p <> [] /\ at_place k p y) ->
    forall p y, In (p, y) (places_of l i) <-> exists j k q, p = (i + j) :: q /\ nth_error l j = Some k /\ at_place k q y).
  { induction l as [|k l IHl]; intros i H p y.
    - cbn. split; [intros []|]. intros (j & k & q & _ & N & _). destruct j; discriminate N.
    - rewrite places_of_cons. cbn [In]. rewrite in_app_iff, in_map_iff, IHl by (intros k' Hk'; apply H; right; exact Hk'). split.
      + intros [[= <- <-]|[((q & y') & [= <- <-] & Q)|(j & k' & q & -> & N & A)]].
        * exists 0, k, []. rewrite Nat.add_0_r. split; [reflexivity|]. split; [reflexivity|constructor].
        * apply (H k (or_introl eq_refl)) in Q as [_ Q]. exists 0, k, q. rewrite Nat.add_0_r. split; [reflexivity|]. split; [reflexivity|exact Q].
        * exists (S j), k', q. rewrite Nat.add_succ_r. split; [reflexivity|]. split; [exact N|exact A].
      + intros ([|j] & k' & q & -> & N & A).
        * cbn in N. injection N as <-. rewrite Nat.add_0_r. destruct q as [|a q].
          -- left. inversion A; subst. reflexivity.
          -- right. left. exists (a :: q, y). split; [reflexivity|]. apply (H k (or_introl eq_refl)). split; [discriminate|exact A].
        * right. right. exists j, k', q. rewrite Nat.add_succ_r. split; [reflexivity|]. split; [exact N|exact A]. }
  intros p y. rewrite (G _ 0 IH). split.
  - intros (j & k & q & -> & N & A). split; [discriminate|]. exact (at_child x j k q y N A).
  - intros [Hp A]. inversion A; subst; [congruence|]. exists i, k, p0. split; [reflexivity|]. split; [assumption|assumption].
Qed.
Lemma places_sorted x : StronglySorted comes_before (map fst (places x)).
Proof.
  induction x as [x IH] using xml_tree_ind. rewrite places_eq.
  assert (M : forall i (l : list (list nat * xml)), map fst (map (fun e => (i :: fst e, snd e)) l) = map (cons i) (map fst l)) by (intros; rewrite !map_map; reflexivity).
  assert (C : forall i l, StronglySorted comes_before l -> StronglySorted comes_before (map (cons i) l)).
  { intros i l S. induction S as [|a l S IHS F]; cbn [map]; [constructor|]. constructor; [exact IHS|]. rewrite Forall_map. eapply Forall_impl; [|exact F]. intros b. apply cb_same. }
  assert (A : forall l m, StronglySorted comes_before l -> StronglySorted comes_before m -> (forall a b, In a l -> In b m -> comes_before a b) -> StronglySorted comes_before (l ++ m)).
  { intros l m S. induction S as [|a l S IHS F]; intros Sm H; cbn [app]; [exact Sm|]. constructor; [apply IHS; [exact Sm|intros; apply H; [right; assumption|assumption]]|].
    rewrite Forall_app. split; [exact F|]. rewrite Forall_forall. intros b Hb. apply H; [left; reflexivity|exact Hb]. }
  assert (L : forall l i p, In p (map fst (places_of l i)) -> exists j q, p = j :: q /\ i <= j).
  { induction l as [|k l IHl]; intros i p; [intros []|]. rewrite places_of_cons. cbn [map fst]. rewrite map_app, M. intros [<-|H]; [exists i, []; auto|].
    apply in_app_or in H as [H|H]; [apply in_map_iff in H as (q & <- & _); exists i, q; auto|]. apply IHl in H as (j & q & -> & Hj). exists j, q. split; [reflexivity|lia]. }
  assert (G : forall l i, (forall k, In k l -> StronglySorted comes_before (map fst (places k))) -> StronglySorted comes_before (map fst (places_of l i))).
  { induction l as [|k l IHl]; intros i H; [constructor|]. rewrite places_of_cons. cbn [map fst]. rewrite map_app, M. constructor.
    - apply A; [apply C, H; left; reflexivity|apply IHl; intros k' Hk'; apply H; right; exact Hk'|].
      intros a b Ha Hb. apply in_map_iff in Ha as (q & <- & _). apply L in Hb as (j & q' & -> & Hj). apply cb_left. lia.
    - rewrite Forall_app. split; rewrite Forall_forall; intros b Hb.
      + apply in_map_iff in Hb as (q & <- & Hq). apply cb_same. apply in_map_iff in Hq as ((p & y) & <- & Hp). apply in_places in Hp as [Hp _]. cbn [fst]. destruct p as [|a p]; [congruence|]. apply cb_inside.
      + apply L in Hb as (j & q' & -> & Hj). apply cb_left. lia. }
  apply G. exact IH.
Qed.
Lemma in_order_places x : in_order x (places x).
Proof. split; [apply places_sorted|apply in_places]. Qed.

(** There is one order: it says which element comes first. *)
Lemma comes_before_one p q : comes_before p q -> ~ comes_before q p.
Proof.
  intros H. induction H as [i p|i j p q H|i p q H IH]; intros K; inversion K; subst; try lia. contradiction.
Qed.
Lemma sorted_one (l m : list (list nat)) : StronglySorted comes_before l -> StronglySorted comes_before m -> (forall p, In p l <-> In p m) -> l = m.
Proof.
  assert (I : forall p, ~ comes_before p p) by (intros p H; exact (comes_before_one _ _ H H)).
  revert m. induction l as [|a l IH]; intros [|b m] Sl Sm H.
  - reflexivity.
  - destruct (proj2 (H b) (or_introl eq_refl)).
  - destruct (proj1 (H a) (or_introl eq_refl)).
  - inversion Sl as [|? ? Sl' Fl]; subst. inversion Sm as [|? ? Sm' Fm]; subst. rewrite Forall_forall in Fl, Fm.
    assert (a = b) as ->.
    { destruct (proj1 (H a) (or_introl eq_refl)) as [E|E]; [congruence|]. destruct (proj2 (H b) (or_introl eq_refl)) as [E'|E']; [congruence|].
      destruct (comes_before_one _ _ (Fl b E') (Fm a E)). }
    f_equal. apply IH; [assumption|assumption|]. intros p. split; intros Hp.
    + destruct (proj1 (H p) (or_intror Hp)) as [<-|K]; [destruct (I b (Fl b Hp))|exact K].
    + destruct (proj2 (H p) (or_intror Hp)) as [<-|K]; [destruct (I b (Fm b Hp))|exact K].
Qed.

(** A tag of an element that is no comment: [{namespace}name] or, without a namespace, the name *)
Definition named (x : xml) (ns local : str) : Prop := x_tag x = Some (u "{" ++ ns ++ u "}" ++ local).
Definition has_value (x : xml) (name value : str) : Prop :=
  exists before after, x_attrs x = before ++ (name, value) :: after /\ forall e, In e before -> fst e <> name.
Lemma attr_value x name v : attr x name = Some v <-> has_value x name v.
Proof.
  unfold attr, has_value. induction (x_attrs x) as [|[k w] l IH]; cbn [dict_get].
  - split; [discriminate|]. intros (b & a & E & _). destruct b; discriminate E.
  - destruct (str_eqb_spec k name) as [->|N].
    + split.
      * intros [= <-]. exists [], l. split; [reflexivity|]. intros e [].
      * intros (b & a & E & F). destruct b as [|e b]; cbn [app] in E; [congruence|]. injection E as <- _. destruct (F (name, w) (or_introl eq_refl) eq_refl).
    + rewrite IH. split.
      * intros (b & a & -> & F). exists ((k, w) :: b), a. split; [reflexivity|]. intros e [<-|He]; [exact N|apply F; exact He].
      * intros (b & a & E & F). destruct b as [|e b]; cbn [app] in E; [injection E as E _ _; congruence|]. injection E as <- ->. exists b, a. split; [reflexivity|]. intros e He. apply F. right. exact He.
Qed.
(** The elements of [x] that satisfy [P], in the order of the document *)
Definition found_in (x : xml) (P : xml -> Prop) (l : list xml) : Prop :=
  exists at_, StronglySorted comes_before (map fst at_) /\ map snd at_ = l /\ forall p y, In (p, y) at_ <-> p <> [] /\ at_place x p y /\ P y.
Lemma found_filter x (f : xml -> bool) (P : xml -> Prop) : (forall y, f y = true <-> P y) -> found_in x P (filter f (descendants x)).
Proof.
  intros H. exists (filter (fun e => f (snd e)) (places x)). rewrite <- (places_elements x). split; [|split].
  - pose proof (places_sorted x) as S. induction (places x) as [|e l IH]; cbn [filter map] in *; [constructor|]. inversion S as [|? ? S' F]; subst.
    destruct (f (snd e)); cbn [map]; [|apply IH; exact S']. constructor; [apply IH; exact S'|]. rewrite Forall_forall in *. intros p Hp. apply F.
    apply in_map_iff in Hp as (e' & <- & He). apply filter_In in He as [He _]. apply in_map. exact He.
  - induction (places x) as [|e l IH]; cbn [filter map]; [reflexivity|]. destruct (f (snd e)); cbn [map]; rewrite IH; reflexivity.
  - intros p y. rewrite filter_In, in_places, H. cbn [snd]. tauto.
Qed.
Lemma found_one x P l m : found_in x P l -> found_in x P m -> l = m.
Proof.
  intros (a & Sa & <- & Ha) (b & Sb & <- & Hb). f_equal.
  assert (E : map fst a = map fst b).
  { apply sorted_one; [exact Sa|exact Sb|]. intros p. rewrite !in_map_iff. split; intros ((q & y) & <- & K); exists (q, y); (split; [reflexivity|]); [apply Hb, Ha, K|apply Ha, Hb, K]. }
  assert (D : forall p y z, at_place x p y -> at_place x p z -> y = z).
  { clear. intros p y z Hy. revert z. induction Hy as [x|x i k p y N Hy IH]; intros z Hz; inversion Hz as [|? k' ? ? N' Hz']; subst; [reflexivity|]. apply IH. assert (k' = k) as <- by congruence. exact Hz'. }
  clear Sa Sb. assert (Fa : forall e, In e a -> at_place x (fst e) (snd e)) by (intros [p y] K; apply Ha in K; tauto). assert (Fb : forall e, In e b -> at_place x (fst e) (snd e)) by (intros [p y] K; apply Hb in K; tauto).
  clear Ha Hb. revert b E Fb. induction a as [|[p y] a IH]; intros [|[q z] b] E Fb; cbn [map fst] in E; try discriminate E; [reflexivity|]. injection E as <- E. f_equal.
  - f_equal. exact (D p y z (Fa _ (or_introl eq_refl)) (Fb _ (or_introl eq_refl))).
  - apply IH; [intros e He; apply Fa; right; exact He|exact E|intros e He; apply Fb; right; exact He].
Qed.

(** The fact elements of a document are those that refer to a context, wherever they are, in the order of the document. *)
Theorem C48_fact_elements root l : fact_elements root = l <-> found_in root (fun y => x_tag y <> None /\ exists v, has_value y (u "contextRef") v) l.
Proof.
  assert (F : found_in root (fun y => x_tag y <> None /\ exists v, has_value y (u "contextRef") v) (fact_elements root)).
  { apply found_filter. intros y. destruct (x_tag y) as [t|]; [|split; [discriminate|intros [N _]; congruence]]. destruct (attr y (u "contextRef")) as [v|] eqn:E.
    - split; [|reflexivity]. intros _. split; [discriminate|]. exists v. apply attr_value. exact E.
    - split; [discriminate|]. intros [_ (v & V)]. apply attr_value in V. congruence. }
  split; [intros <-; exact F|]. intros G. exact (found_one _ _ _ _ F G).
Qed.
(** The declarations of a schema are its elements with a name, wherever they are. *)
Theorem C56_declarations root l : declarations root = l <-> found_in root (fun y => named y (u "http://www.w3.org/2001/XMLSchema") (u "element") /\ exists v, has_value y (u "name") v) l.
Proof.
  assert (F : found_in root (fun y => named y (u "http://www.w3.org/2001/XMLSchema") (u "element") /\ exists v, has_value y (u "name") v) (declarations root)).
  { apply found_filter. intros y. unfold has_tag, named. change xs with (u "http://www.w3.org/2001/XMLSchema"). rewrite Bool.andb_true_iff.
    assert (T : opt_eqb str_eqb (x_tag y) (Some (clark (u "http://www.w3.org/2001/XMLSchema") (u "element"))) = true <-> x_tag y = Some (u "{" ++ u "http://www.w3.org/2001/XMLSchema" ++ u "}" ++ u "element")).
    { unfold clark. destruct (x_tag y) as [t|]; cbn [opt_eqb]; [|split; discriminate]. destruct (str_eqb_spec t (u "{" ++ u "http://www.w3.org/2001/XMLSchema" ++ u "}" ++ u "element")) as [K|K]; split; intros Q; try discriminate Q; [rewrite K; reflexivity|reflexivity|congruence]. }
    rewrite T. destruct (attr y (u "name")) as [v|] eqn:E.
    - split; intros [Q _]; (split; [exact Q|]); [exists v; apply attr_value; exact E|reflexivity].
    - split; intros [Q V]; [discriminate V|]. destruct V as (v & V). apply attr_value in V. congruence. }
  split; [intros <-; exact F|]. intros G. exact (found_one _ _ _ _ F G).
Qed.
(** A search by identifier finds the first element of the document that has it, and nothing only if none has. *)
Theorem C58_by_identifier root id :
  match find_id root id with
  | Some y => has_value y (u "id") id /\ exists p, p <> [] /\ at_place root p y /\ forall q z, q <> [] -> at_place root q z -> has_value z (u "id") id -> q = p \/ comes_before p q
  | None => forall p z, p <> [] -> at_place root p z -> ~ has_value z (u "id") id
  end.
Proof.
  assert (T : forall y, opt_eqb str_eqb (attr y (u "id")) (Some id) = true <-> has_value y (u "id") id).
  { intros y. rewrite <- attr_value. destruct (attr y (u "id")) as [v|]; cbn [opt_eqb]; [|split; discriminate]. destruct (str_eqb_spec v id) as [->|K]; split; intros Q; try discriminate Q; [reflexivity|reflexivity|congruence]. }
  unfold find_id. rewrite <- places_elements. pose proof (places_sorted root) as S. pose proof (in_places root) as I.
  assert (G : forall l, StronglySorted comes_before (map fst l) -> match find (fun k => opt_eqb str_eqb (attr k (u "id")) (Some id)) (map snd l) with
    | Some y => has_value y (u "id") id /\ exists p, In (p, y) l /\ forall q z, In (q, z) l -> has_value z (u "id") id -> q = p \/ comes_before p q
    | None => forall p z, In (p, z) l -> ~ has_value z (u "id") id end).
  { induction l as [|[p y] l IH]; intros Sl; cbn [map snd fst find] in *; [intros p z []|]. inversion Sl as [|? ? S' F]; subst. rewrite Forall_forall in F.
    destruct (opt_eqb str_eqb (attr y (u "id")) (Some id)) eqn:E.
    - apply T in E. split; [exact E|]. exists p. split; [left; reflexivity|]. intros q z [[= <- _]|K] _; [left; reflexivity|]. right. apply F. apply in_map_iff. exists (q, z). auto.
    - specialize (IH S'). assert (N : ~ has_value y (u "id") id) by (rewrite <- T; congruence). destruct (find _ (map snd l)) as [y'|].
      + destruct IH as (V & p' & Hp & H). split; [exact V|]. exists p'. split; [right; exact Hp|]. intros q z [[= <- <-]|K] W; [contradiction|]. exact (H q z K W).
      + intros q z [[= <- <-]|K]; [exact N|exact (IH q z K)]. }
  specialize (G _ S). destruct (find _ (map snd (places root))) as [y|].
  - destruct G as (V & p & Hp & H). split; [exact V|]. apply I in Hp as [Hp A]. exists p. split; [exact Hp|]. split; [exact A|]. intros q z Hq Az W. apply (H q z); [apply I; auto|exact W].
  - intros p z Hp A. apply (G p z). apply I. auto.
Qed.
Example C48_example_places : let fact i := Xml (Some (u "t:Cash")) [(u "id", i); (u "contextRef", u "c")] [] None [] in
  let root := Xml (Some (u "xbrl")) [] [] None [Xml (Some (u "tuple")) [] [] None [fact (u "a")]; fact (u "b")] in
  at_place root [0; 0] (fact (u "a")) /\ at_place root [1] (fact (u "b")) /\ comes_before [0; 0] [1] /\
  fact_elements root = [fact (u "a"); fact (u "b")] /\ find_id root (u "b") = Some (fact (u "b")).
Proof.
  split; [eapply at_child; [reflexivity|]; eapply at_child; [reflexivity|]; constructor|]. split; [eapply at_child; [reflexivity|]; constructor|].
  split; [apply cb_left; lia|]. split; vm_compute; reflexivity.
Qed.

Print Assumptions C48_fact_elements.
Print Assumptions C56_declarations.
Print Assumptions C58_by_identifier.
