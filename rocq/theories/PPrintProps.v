(** Theorems C113: which of the printing functions [pprint] calls, and what is printed of components and of lists. *)
From Coq Require Import QArith.
From Verif Require Import Base QNameModel CtxModel CtxSpec CtxProofs PrintModel PrintSpec PrintProofs PrintFactProofs
  PrintProps CompModel PPrintModel PPrintSpec.
Local Open Scope nat_scope.

Lemma networks_present c : networks_of c (get_networks c).
Proof.
  unfold networks_of, get_networks. destruct c as [uri info [p|] [k|] [d|]]; cbn; repeat constructor.
Qed.
Lemma present_unique {A} (l : list (option A)) r r' : present l r -> present l r' -> r = r'.
Proof. intros H. revert r'. induction H; intros r' H'; inversion H'; subst; try f_equal; auto. Qed.

Lemma andthen_ok a b l : andthen a b = (l, None) ->
  exists la lb, a = (la, None) /\ b = (lb, None) /\ l = la ++ lb.
Proof.
  destruct a as [la [e|]], b as [lb eb]; cbn; intros E; [discriminate|]. injection E as <- ->. eauto.
Qed.
Lemma andthen_calls la lb : andthen (la, None) (lb, None) = (la ++ lb, None).
Proof. reflexivity. Qed.

Lemma print_network_ok fuel n l : print_network fuel n = (l, None) ->
  exists lines, network_lines n lines /\ l = map PrintText lines.
Proof.
  unfold print_network, print_lines. destruct (pprint_network _ _ _ _ _) as [lines|e] eqn:E; [|discriminate].
  intros H. injection H as <-. exists lines. split; [|reflexivity].
  unfold network_lines. unfold pprint_network in E.
  destruct (print_all _ _) as [b|] eqn:Eb; [|discriminate].
  destruct (print_all_draws _ fuel [] (print_draws _ fuel) _ _ Eb) as (ts & Hts & D).
  specialize (D 0 [] eq_refl I). rewrite !app_nil_r in D.
  exists (prefix_local_notation (no_name n)), ts. split; [exact Hts|]. split; [reflexivity|].
  cbn [bind] in E. injection E as <-. change (fun i => shown (no_net n i)) with (PrintProofs.text_in (no_net n)). rewrite D. reflexivity.
Qed.

Lemma print_networks_ok objects fuel : forall ns l, print_networks objects fuel ns = (l, None) ->
  exists blocks, Forall2 (fun n => network_lines (objects (n_object n))) ns blocks /\
    l = flat_map (fun b => map PrintText b ++ [PrintText []]) blocks.
Proof.
  induction ns as [|n ns IH]; intros l H.
  - injection H as <-. exists []. split; [constructor|reflexivity].
  - cbn [print_networks] in H. apply andthen_ok in H. destruct H as (l1 & l2 & H1 & H2 & ->).
    apply andthen_ok in H2. destruct H2 as (l3 & l4 & H3 & H4 & ->). injection H3 as <-.
    destruct (IH _ H4) as (bs & Fb & ->). apply print_network_ok in H1. destruct H1 as (b & Hb & ->).
    exists (b :: bs). split; [constructor; assumption|]. cbn [flat_map]. rewrite <- app_assoc. reflexivity.
Qed.

Lemma belows_unique g : forall l ts ts', belows g l ts -> belows g l ts' -> ts = ts'.
Proof.
  induction l as [|i l IH]; intros ts ts' B B'; inversion B; subst; inversion B'; subst; [reflexivity|].
  f_equal; [eapply C85_tree_unique; eassumption|auto].
Qed.

Lemma print_networks_acyclic objects fuel : forall ns l, print_networks objects fuel ns = (l, None) ->
  forall n, In n ns -> acyclic (objects (n_object n)).
Proof.
  induction ns as [|m ns IH]; intros l H n Hn; [destruct Hn|].
  cbn [print_networks] in H. apply andthen_ok in H. destruct H as (l1 & l2 & H1 & H2 & ->).
  apply andthen_ok in H2. destruct H2 as (l3 & l4 & H3 & H4 & ->).
  destruct Hn as [<-|Hn]; [|eapply IH; eassumption].
  unfold print_network, print_lines in H1. destruct (pprint_network _ _ _ _ _) as [lines|] eqn:E; [|discriminate].
  exact (proj1 (network_ends _ _ _ _) (ex_intro _ _ (ex_intro _ _ E))).
Qed.

Lemma print_network_more fuel fuel' n l : fuel <= fuel' -> print_network fuel n = (l, None) ->
  exists l', print_network fuel' n = (l', None).
Proof.
  intros L. unfold print_network, print_lines. destruct (pprint_network fuel _ _ _ _) as [lines|] eqn:E; [|discriminate]. intros _.
  unfold pprint_network in *. destruct (print_all _ (no_roots n)) as [b|] eqn:Eb in E; [|discriminate].
  destruct (print_all_ok (fun b => print_sub_network fuel' (no_net n) b []) (no_roots n)) as [ls E'].
  - intros b' j Hj. destruct (print_all_inv _ _ _ Eb j Hj) as (b'' & ls'' & E''). apply can_any in E''.
    apply (can_print_le _ _ _ _ L E'').
  - rewrite E'. eexists. reflexivity.
Qed.

Lemma acyclic_print_networks objects : forall ns, (forall n, In n ns -> acyclic (objects (n_object n))) ->
  exists fuel l, print_networks objects fuel ns = (l, None).
Proof.
  intros ns A.
  assert (exists fuel, forall n, In n ns -> exists l, print_network fuel (objects (n_object n)) = (l, None)) as [fuel H].
  { induction ns as [|n ns IH]; [exists 0; intros n []|].
    destruct IH as [f1 H1]; [intros m Hm; apply A; right; exact Hm|].
    pose proof (A n (or_introl eq_refl)) as An. unfold acyclic in An.
    apply (network_ends _ (no_role (objects (n_object n))) (no_name (objects (n_object n)))) in An.
    destruct An as (f2 & lines & E). exists (Nat.max f1 f2). intros m [<-|Hm].
    - apply (print_network_more f2 _ _ (map PrintText lines)); [lia|]. unfold print_network, print_lines. rewrite E. reflexivity.
    - destruct (H1 m Hm) as [l Hl]. apply (print_network_more f1 _ _ l); [lia|exact Hl]. }
  exists fuel. clear A. induction ns as [|n ns IH]; [eexists; reflexivity|].
  destruct (H n (or_introl eq_refl)) as [l1 E1]. destruct IH as [l2 E2]; [intros m Hm; apply H; right; exact Hm|].
  cbn [print_networks]. rewrite E1, E2. eexists. reflexivity.
Qed.

Lemma andthen_not a b e : snd a <> Some e -> snd b <> Some e -> snd (andthen a b) <> Some e.
Proof. destruct a as [la [ea|]], b as [lb eb]; cbn; auto. Qed.

Lemma print_all_fails p l e : (forall b i e, p b i = Raise e -> e = OutOfFuel) -> print_all p l = Raise e -> e = OutOfFuel.
Proof.
  intros Hp. induction l as [|i l IH]; cbn [print_all]; [discriminate|].
  destruct (p _ i) as [a|ea] eqn:E; cbn [bind].
  - destruct (print_all p l) as [b|eb]; cbn [bind]; [discriminate|]. intros H. apply IH. exact H.
  - intros H. injection H as <-. eapply Hp. exact E.
Qed.
Lemma print_sub_fails : forall fuel g last header i e, print_sub_network fuel g last header i = Raise e -> e = OutOfFuel.
Proof.
  induction fuel as [|f IH]; intros g last header i e H; [injection H as <-; reflexivity|].
  rewrite print_S in H. destruct (print_all _ _) as [|e'] eqn:E; [discriminate|]. cbn [bind] in H. injection H as <-.
  eapply print_all_fails; [|exact E]. intros b j e'' X. eapply IH. exact X.
Qed.
Lemma pprint_network_fails fuel g lr ln roots e : pprint_network fuel g lr ln roots = Raise e -> e = OutOfFuel.
Proof.
  unfold pprint_network. destruct (print_all _ _) as [|e'] eqn:E; [discriminate|]. cbn [bind]. intros H. injection H as <-.
  eapply print_all_fails; [|exact E]. intros b j e'' X. eapply print_sub_fails. exact X.
Qed.

Lemma char_get c a : get_characteristic c a = dict_get str_eqb (c_chars c) a.
Proof.
  unfold get_characteristic. induction (c_chars c) as [|[k v] l IH]; [reflexivity|]. cbn [find dict_get fst].
  destruct (str_eqb k a); [reflexivity|exact IH].
Qed.

Section Theorems.
Variable markup_ok : str -> bool.
Variable objects : nat -> netobj.
Variable ord : list str -> list str.

(** A component is printed as its identifier, its description and all of its networks. *)
Theorem C113_component fuel c l : pprint markup_ok objects ord fuel (OComponent c) = (l, None) -> component_shown objects c l.
Proof.
  cbn [pprint]. unfold pprint_component, rich_print, get_URI, get_info. intros H.
  apply andthen_ok in H. destruct H as (l1 & l2 & H1 & H2 & ->).
  destruct (markup_ok _); [|discriminate]. injection H1 as <-.
  apply andthen_ok in H2. destruct H2 as (l3 & l4 & H3 & H4 & ->).
  destruct (markup_ok _); [|discriminate]. injection H3 as <-.
  apply andthen_ok in H4. destruct H4 as (l5 & l6 & H5 & H6 & ->).
  apply andthen_ok in H6. destruct H6 as (l7 & l8 & H7 & H8 & ->). injection H8 as <-.
  destruct (print_networks_ok _ _ _ _ H5) as (bs & Fb & ->).
  exists (get_networks c), bs. split; [apply networks_present|]. split; [exact Fb|].
  unfold uri_line, info_line, notice. cbn [app]. do 2 f_equal. f_equal. f_equal.
  destruct (get_networks c); cbn [length Nat.eqb].
  - destruct (markup_ok _); [|discriminate]. injection H7 as <-. reflexivity.
  - injection H7 as <-. reflexivity.
Qed.

(** Nothing else can be meant by that. *)
Theorem C113_component_unique c l l' : component_shown objects c l -> component_shown objects c l' -> l = l'.
Proof.
  intros (ns & bs & N & F & ->) (ns' & bs' & N' & F' & ->).
  pose proof (present_unique _ _ _ N N') as <-.
  assert (bs = bs') as <-; [|reflexivity].
  clear N N'. revert bs' F'. induction F as [|n b ns bs Hb F IH]; intros bs' F'; inversion F' as [|? b' ? bs'' Hb' F'']; subst; [reflexivity|].
  f_equal; [|apply IH; assumption].
  destruct Hb as (nm & ts & B & -> & ->), Hb' as (nm' & ts' & B' & -> & ->).
  assert (ts = ts') as <-; [|reflexivity].
  eapply belows_unique; eassumption.
Qed.

(** It is printed to its end if and only if its texts are acceptable markup and no node of its networks is below
    itself. *)
Theorem C113_component_ends c ns : networks_of c ns ->
  (exists fuel l, pprint markup_ok objects ord fuel (OComponent c) = (l, None)) <->
  markup_ok (uri_line c) = true /\ markup_ok (info_line c) = true /\ (ns = [] -> markup_ok notice = true) /\
  forall n, In n ns -> acyclic (objects (n_object n)).
Proof.
  intros N. pose proof (present_unique _ _ _ N (networks_present c)) as ->. clear N.
  cbn [pprint]. unfold pprint_component, rich_print, get_URI, get_info, uri_line, info_line, notice. split.
  - intros (fuel & l & H).
    apply andthen_ok in H. destruct H as (l1 & l2 & H1 & H2 & ->).
    destruct (markup_ok _) eqn:M1 in H1; [|discriminate].
    apply andthen_ok in H2. destruct H2 as (l3 & l4 & H3 & H4 & ->).
    destruct (markup_ok _) eqn:M2 in H3; [|discriminate].
    apply andthen_ok in H4. destruct H4 as (l5 & l6 & H5 & H6 & ->).
    apply andthen_ok in H6. destruct H6 as (l7 & l8 & H7 & H8 & ->).
    split; [exact M1|]. split; [exact M2|]. split.
    + intros E. rewrite E in H7. destruct (markup_ok _) eqn:M3 in H7; [exact M3|discriminate].
    + eapply print_networks_acyclic. exact H5.
  - intros (M1 & M2 & M3 & A). destruct (acyclic_print_networks objects _ A) as (fuel & l & H).
    exists fuel. rewrite M1, M2, H. destruct (get_networks c) as [|n ns].
    + rewrite (M3 eq_refl). eexists. reflexivity.
    + eexists. reflexivity.
Qed.

(** A list of components is printed as its components in turn. *)
Theorem C113_components fuel cs : cs <> [] ->
  in_turn (map (fun c => pprint markup_ok objects ord fuel (OComponent c)) cs)
          (pprint markup_ok objects ord fuel (OList (map OComponent cs))).
Proof.
  intros N. destruct cs as [|c cs]; [contradiction|]. clear N.
  change (pprint _ _ _ fuel (OList _)) with (pprint_components markup_ok objects fuel (map OComponent (c :: cs))).
  generalize (c :: cs) as l. clear c cs. induction l as [|c l IH]; [constructor|].
  cbn [map pprint_components pprint]. destruct (pprint_component _ _ _ c) as [lc [e|]]; cbn [andthen snd]; [constructor|].
  cbn [fst]. destruct (pprint_components _ _ _ _) as [lr er]. constructor. exact IH.
Qed.

(** Runs in turn have one outcome. *)
Theorem C113_in_turn_unique rs r r' : in_turn rs r -> in_turn rs r' -> r = r'.
Proof.
  intros H. revert r'. induction H as [|l rs l' e H IH|l e rs]; intros r' H'; inversion H'; subst; try reflexivity.
  match goal with X : in_turn rs _ |- _ => apply IH in X; injection X as <- <- end. reflexivity.
Qed.

(** Lists of facts, and single facts, are printed as the tables of C87. *)
Theorem C113_facts fuel facts : (forall l, Permutation (ord l) l) ->
  ~ aspect_used facts (u "id") -> ~ aspect_used facts (u "value") ->
  exists aspects sorted rows,
    pprint markup_ok objects ord fuel (OList (map OFact facts)) =
      ([PrintTable (u "Facts Table") (u "id" :: aspects ++ [u "value"]) rows], None) /\
    StronglySorted column_before aspects /\ (forall a, In a aspects <-> aspect_used facts a) /\
    in_id_order facts sorted /\ Forall2 (row_shows aspects) sorted rows.
Proof.
  intros Ho N1 N2. destruct (proj2 (C87_fails ord facts Ho) N1 N2) as ([columns rows] & E).
  destruct (C87_table ord facts columns rows Ho E) as (aspects & sorted & Hc & S & I & O & R).
  exists aspects, sorted, rows. split; [|auto]. rewrite <- Hc.
  assert (facts_of (map OFact facts) = Some facts) as Hf
    by (clear; induction facts as [|f l IH]; [reflexivity|cbn [map facts_of]; rewrite IH; reflexivity]).
  assert (pprint markup_ok objects ord fuel (OList (map OFact facts)) = print_facts ord (map OFact facts)) as ->
    by (destruct facts; reflexivity).
  unfold print_facts. rewrite Hf, E. reflexivity.
Qed.

Theorem C113_fact fuel f : exists names,
  pprint markup_ok objects ord fuel (OFact f) =
    ([PrintTable (u "Fact Table") [u "aspect"; u "value"]
        (map (fun a => [CText (Some a); CChar (dict_get str_eqb (c_chars (f_context f)) a)]) names
         ++ [[CText (Some (u "value")); CText (Some (f_value f))]])], None) /\
  Permutation names (c_aspects (f_context f)) /\
  StronglySorted (fun a b => a = b \/ lex_lt a b) names.
Proof.
  destruct (C87_fact f) as (rows & E & P & S & C). exists (map fst rows). split; [|split; [exact P|exact S]].
  cbn [pprint]. unfold print_fact. rewrite E, map_app, map_map. cbn [map fst snd].
  assert (map (fun r : str * cell => [CText (Some (fst r)); snd r]) rows =
          map (fun r => [CText (Some (fst r)); CChar (dict_get str_eqb (c_chars (f_context f)) (fst r))]) rows) as ->;
    [|reflexivity].
  apply map_ext_in. intros [a c] Ha. cbn [fst snd]. rewrite (C a c Ha), char_get. reflexivity.
Qed.

(** A network and a node are printed as in C85. *)
Theorem C113_network fuel n l : pprint markup_ok objects ord fuel (ONetwork n) = (l, None) ->
  exists lines, network_lines n lines /\ l = map PrintText lines.
Proof. apply print_network_ok. Qed.
Theorem C113_node fuel g i l : pprint markup_ok objects ord fuel (ONode g i) = (l, None) ->
  exists t, below g i t /\ l = map PrintText (drawing (fun i => shown (g i)) (entries 0 t)).
Proof.
  cbn [pprint]. unfold print_lines. destruct (pprint_network_node _ _ _) as [lines|] eqn:E; [|discriminate].
  intros H. injection H as <-. destruct (C85_node _ _ _ _ E) as (t & B & ->). eauto.
Qed.

(** Objects of other kinds, and lists that begin with them, are rejected and nothing is printed. *)
Theorem C113_unsupported fuel o :
  (unsupported o -> pprint markup_ok objects ord fuel o = ([], Some TypeError)) /\
  (snd (pprint markup_ok objects ord fuel o) = Some TypeError -> unsupported o).
Proof.
  split.
  - intros [-> | (x & r & -> & Nf & Nc)]; [reflexivity|]. destruct x; try reflexivity.
    + exfalso. apply Nf. eexists. reflexivity.
    + exfalso. apply Nc. eexists. reflexivity.
  - assert (Hn : forall n, snd (print_network fuel n) <> Some TypeError).
    { intros n. unfold print_network, print_lines.
      destruct (pprint_network _ _ _ _ _) as [|e] eqn:E; [discriminate|]. apply pprint_network_fails in E as ->. discriminate. }
    assert (Hc : forall c, snd (pprint_component markup_ok objects fuel c) <> Some TypeError).
    { intros c. unfold pprint_component. repeat apply andthen_not; try (unfold rich_print; destruct (markup_ok _); discriminate); try discriminate.
      - induction (get_networks c) as [|n ns IH]; [discriminate|]. cbn [print_networks].
        repeat apply andthen_not; [apply Hn|discriminate|exact IH].
      - destruct (get_networks c); [unfold rich_print; destruct (markup_ok _); discriminate|discriminate]. }
    assert (Hf : forall l, snd (print_facts ord l) <> Some TypeError).
    { intros l. unfold print_facts. destruct (facts_of l) as [fs|]; [|discriminate].
      unfold pprint_facts. destruct (distinct _); discriminate. }
    destruct o as [f|l|n|g i|c| |]; cbn [pprint]; intros H; try discriminate.
    + right. destruct l as [|x r]; [exfalso; eapply Hf; exact H|].
      destruct x; try (eexists; exists r; split; [reflexivity|split; intros [? E]; discriminate E]).
      * exfalso. eapply Hf. exact H.
      * exfalso. revert H. match goal with |- snd (_ _ _ _ ?k) = _ -> _ => generalize k end. intros l. induction l as [|y l IH]; [discriminate|].
        destruct y; cbn [pprint_components]; try discriminate. apply andthen_not; [apply Hc|exact IH].
    + exfalso. eapply Hn. exact H.
    + exfalso. unfold print_lines in H. destruct (pprint_network_node _ _ _) as [|e] eqn:E; [discriminate|].
      apply print_sub_fails in E as ->. discriminate.
    + exfalso. eapply Hc. exact H.
    + left. reflexivity.
Qed.

(** A list that begins with a fact and has another object in it is rejected with nothing printed, but as an attribute
    that is missing. *)
Theorem C113_mixed_facts fuel f l : Exists (fun o => ~ is_fact o) l ->
  pprint markup_ok objects ord fuel (OList (OFact f :: l)) = ([], Some AttributeError).
Proof.
  intros H. cbn [pprint]. unfold print_facts. cbn [facts_of].
  assert (facts_of l = None) as ->; [|reflexivity].
  induction H as [o l H|o l H IH].
  - destruct o; try reflexivity. exfalso. apply H. eexists. reflexivity.
  - destruct o; try reflexivity. cbn [facts_of]. rewrite IH. reflexivity.
Qed.

(** A list that begins with components and has another object in it fails only after the components before the object
    have been printed. *)
Theorem C113_mixed_components fuel cs o l : cs <> [] -> ~ is_component o ->
  in_turn (map (fun c => pprint markup_ok objects ord fuel (OComponent c)) cs ++ [([], Some AttributeError)])
          (pprint markup_ok objects ord fuel (OList (map OComponent cs ++ o :: l))).
Proof.
  intros N No. destruct cs as [|c cs]; [contradiction|]. clear N.
  change (pprint _ _ _ fuel (OList _)) with (pprint_components markup_ok objects fuel (map OComponent (c :: cs) ++ o :: l)).
  generalize (c :: cs) as k. clear c cs. induction k as [|c k IH].
  - cbn [map app]. assert (pprint_components markup_ok objects fuel (o :: l) = ([], Some AttributeError)) as ->.
    { destruct o; try reflexivity. exfalso. apply No. eexists. reflexivity. }
    constructor.
  - cbn [map app pprint_components pprint]. destruct (pprint_component _ _ _ c) as [lc [e|]]; cbn [andthen snd]; [constructor|].
    cbn [fst]. destruct (pprint_components _ _ _ _) as [lr er]. constructor. exact IH.
Qed.

(** Every network of a list may be printable, and the list is not. *)
Theorem C113_networks_refuted fuel n l :
  pprint markup_ok objects ord fuel (OList (ONetwork n :: l)) = ([], Some TypeError).
Proof. reflexivity. Qed.

(** A description that is no markup stops the printing of a component after its first line. *)
Theorem C113_info_refuted fuel c : markup_ok (uri_line c) = true -> markup_ok (info_line c) = false ->
  pprint markup_ok objects ord fuel (OComponent c) = ([PrintMarkup (uri_line c)], Some ValueError).
Proof.
  cbn [pprint]. unfold pprint_component, rich_print, uri_line, info_line, get_URI, get_info.
  generalize (u "[bold]Component:[/bold] " ++ c_uri c) as x. generalize (u "[italic]Info:[/italic] " ++ c_info c) as y.
  generalize (u "[yellow]No networks in this component.[/yellow]") as z.
  intros z y x M1 M2. rewrite M1, M2. reflexivity.
Qed.

End Theorems.

(** ** Cases *)

Definition any_text (s : str) : bool := true.
(** A text with a closing tag that closes nothing. *)
Definition no_stray (s : str) : bool := negb (contains (u "[/net of tax]") s).
Definition keep (l : list str) : list str := l.
Definition sample_obj (k : nat) : netobj :=
  match k with
  | 0 => NetObj tree_net (u "role") q_link [3]
  | _ => NetObj (sample_net [sample_el "a" [0]]) (u "role") q_link [0]
  end.
Definition sample_component : component :=
  Component (u "role") (u "Balance sheet") (Some (Network NPresentation false (u "role") 0)) None
    (Some (Network NDefinition false (u "role") 0)).
Definition bare_component : component := Component (u "r2") (u "Cover") None None None.
Definition odd_component : component := Component (u "r3") (u "Income [/net of tax]") None None None.
Definition endless_component : component :=
  Component (u "r4") (u "Loop") None (Some (Network NCalculation false (u "r4") 1)) None.

Definition network_calls : list call :=
  [PrintText (u "Network (link role: role), link name: link:presentationLink");
   PrintText (u "└──[CONCEPT] d"); PrintText (u "   └──[CONCEPT] c"); PrintText []; PrintText []].

Example C113_component_case : pprint no_stray sample_obj keep 5 (OComponent sample_component) =
  ([PrintMarkup (u "[bold]Component:[/bold] role"); PrintMarkup (u "[italic]Info:[/italic] Balance sheet")]
   ++ network_calls ++ network_calls ++ [PrintText []], None).
Proof. vm_compute. reflexivity. Qed.

Example C113_components_case :
  pprint no_stray sample_obj keep 5 (OList [OComponent bare_component; OComponent odd_component; OComponent bare_component]) =
  ([PrintMarkup (u "[bold]Component:[/bold] r2"); PrintMarkup (u "[italic]Info:[/italic] Cover");
    PrintMarkup (u "[yellow]No networks in this component.[/yellow]"); PrintText [];
    PrintMarkup (u "[bold]Component:[/bold] r3")], Some ValueError).
Proof. vm_compute. reflexivity. Qed.

Example C113_component_ends_case :
  networks_of endless_component [Network NCalculation false (u "r4") 1] /\ ~ acyclic (sample_obj 1) /\ acyclic (sample_obj 0).
Proof.
  split; [repeat constructor|split].
  - intros A. specialize (A 0 (or_introl eq_refl)).
    assert (H : forall i, Acc (child (no_net (sample_obj 1))) i -> i = 0 -> False).
    { intros i Hi. induction Hi as [i _ IH]. intros ->. apply (IH 0); [left; reflexivity|reflexivity]. }
    exact (H 0 A eq_refl).
  - intros i [<-|[]]. constructor. intros j [<-|[]]. constructor. intros k [].
Qed.

Example C113_mixed_facts_case f : pprint any_text sample_obj keep 5 (OList [OFact f; OOther]) = ([], Some AttributeError).
Proof. reflexivity. Qed.

(** A component is printed, then the list turns out to be mixed. *)
Theorem C113_partly_printed_refuted : exists l calls e, calls <> [] /\
  pprint any_text sample_obj keep 5 (OList l) = (calls, Some e) /\ e <> TypeError /\
  forall o, In o l -> exists c, pprint any_text sample_obj keep 5 o = (c, None).
Proof.
  exists [OComponent bare_component; OTable]. eexists. eexists. split; [|split; [vm_compute; reflexivity|split; [discriminate|]]].
  - discriminate.
  - intros o [<-|[<-|[]]]; eexists; vm_compute; reflexivity.
Qed.

(** Networks that can be printed, in a list that cannot. *)
Example C113_networks_refuted_case :
  (exists l, pprint any_text sample_obj keep 5 (ONetwork (sample_obj 0)) = (l, None)) /\
  pprint any_text sample_obj keep 5 (OList [ONetwork (sample_obj 0)]) = ([], Some TypeError).
Proof. split; [eexists; vm_compute; reflexivity|reflexivity]. Qed.

Example C113_unsupported_case : unsupported (OList [ONetwork (sample_obj 0); OTable]) /\ unsupported (OList [OList []]).
Proof. split; right; eexists; eexists; (split; [reflexivity|split; intros [? E]; discriminate E]). Qed.

(** A table that can be asked for any cells is printed as an empty line. *)
Theorem C113_table_refuted markup_ok objects ord fuel : pprint markup_ok objects ord fuel OTable = ([PrintText []], None).
Proof. reflexivity. Qed.

Print Assumptions C113_component.
Print Assumptions C113_component_unique.
Print Assumptions C113_component_ends.
Print Assumptions C113_components.
Print Assumptions C113_in_turn_unique.
Print Assumptions C113_facts.
Print Assumptions C113_fact.
Print Assumptions C113_network.
Print Assumptions C113_node.
Print Assumptions C113_unsupported.
Print Assumptions C113_mixed_facts.
Print Assumptions C113_mixed_components.
Print Assumptions C113_networks_refuted.
Print Assumptions C113_info_refuted.
Print Assumptions C113_partly_printed_refuted.
Print Assumptions C113_table_refuted.
