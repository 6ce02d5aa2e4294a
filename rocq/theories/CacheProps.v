(** Properties C110: what has been opened once can be opened again from the cache, with the same result, and
    C71: a cache that is up to date makes no difference. *)
From Coq Require Import QArith Permutation.
From Verif Require Import Base QNameModel ErrBase ErrModel DateModel CtxModel NetSpec DtsModel DtsSpec DtsRefs DtsLoad CacheSpec CacheProofs OpenModel OpenFilingModel.
From Verif Require CtxProps FilingModel FilingProps DtsProps OrderProps FootModel InlineFilingModel.
Local Open Scope nat_scope.

(** ** Opening again *)

(** A session is repeated exactly, whatever has become of network and disk, if the files it has left in the
    cache are still there. *)
Theorem C110_again lib so fs w w' parse_file fuel cached path f left cached' :
  w_urljoin w = w_urljoin w' -> w_parse w = w_parse w' -> w_order w = w_order w' ->
  open_filing lib so fs w parse_file fuel cached path = Ok (f, left) ->
  (forall name text, dict_get str_eqb left name = Some text -> dict_get str_eqb cached' name = Some text) ->
  open_filing lib so fs w' parse_file fuel cached' path = Ok (f, cached').
Proof.
  intros Hj Hp Ho H Hx. unfold open_filing, open_path, create_parser, open_context in *.
  destruct (load_path fs fuel path) as [l|]; [|discriminate H]. cbn [bind] in *. destruct l as [|p l]; [discriminate H|].
  destruct (parse_catalog parse_file (p :: l)) as [[[paths r] es]|]; [|discriminate H]. cbn [bind] in *.
  destruct (load_all w r fuel paths (Cache cached [])) as [s|] eqn:El; [|discriminate H]. cbn [bind] in H.
  assert (K : files s = left /\ (if forallb is_xml_file paths then parse_opened lib so fuel XmlFiling (trees s) es
    else if forallb is_known_file paths then parse_opened lib so fuel XhtmlFiling (trees s) es else Raise ValueError) = Ok f).
  { destruct (forallb is_xml_file paths); [|destruct (forallb is_known_file paths); [|discriminate H]]; cbn [bind] in H;
      match type of H with context [parse_opened ?a ?b ?c ?d ?e ?g] => destruct (parse_opened a b c d e g) as [f'|]; [|discriminate H] end;
      cbn [bind] in H; injection H as -> ->; split; reflexivity. }
  destruct K as [<- K]. clear H.
  destruct (again_all w w' r Hj Hp Ho fuel paths _ _ El) as [_ A]. cbn [trees] in A. rewrite (A cached' Hx). cbn [bind].
  destruct (forallb is_xml_file paths); [|destruct (forallb is_known_file paths); [|discriminate K]]; cbn [bind trees files]; rewrite K; reflexivity.
Qed.
(** In particular without network and disk *)
Theorem C110_offline lib so fs w parse_file fuel cached path f left :
  open_filing lib so fs w parse_file fuel cached path = Ok (f, left) ->
  open_filing lib so fs (offline w) parse_file fuel left path = Ok (f, left).
Proof. intros H. apply (C110_again lib so fs w (offline w) parse_file fuel cached path f left left eq_refl eq_refl eq_refl H). intros n t E. exact E. Qed.

(** Nothing in the cache is changed by opening. *)
Theorem C110_kept lib so fs w parse_file fuel cached path f left :
  open_filing lib so fs w parse_file fuel cached path = Ok (f, left) ->
  forall name text, dict_get str_eqb cached name = Some text -> dict_get str_eqb left name = Some text.
Proof.
  intros H. unfold open_filing, open_path, create_parser, open_context in H.
  destruct (load_path fs fuel path) as [l|]; [|discriminate H]. cbn [bind] in H. destruct l as [|p l]; [discriminate H|].
  destruct (parse_catalog parse_file (p :: l)) as [[[paths r] es]|]; [|discriminate H]. cbn [bind] in H.
  destruct (load_all w r fuel paths (Cache cached [])) as [s|] eqn:El; [|discriminate H]. cbn [bind] in H.
  assert (K : files s = left).
  { destruct (forallb is_xml_file paths); [|destruct (forallb is_known_file paths); [|discriminate H]]; cbn [bind] in H;
      match type of H with context [parse_opened ?a ?b ?c ?d ?e ?g] => destruct (parse_opened a b c d e g) as [f'|]; [|discriminate H] end;
      cbn [bind] in H; injection H as _ <-; reflexivity. }
  subst left. destruct (again_all w w r eq_refl eq_refl eq_refl fuel paths _ _ El) as [A _]. exact A.
Qed.

(** ** A cache that is up to date *)

Definition same_outcome {A B} (r1 r2 : res (A * B)) : Prop :=
  match r1, r2 with
  | Ok (f1, _), Ok (f2, _) => f1 = f2
  | Raise e1, Raise e2 => e1 = e2
  | _, _ => False
  end.

Section Dated.
Context {tree : Type} (w : world tree) (r : rules) (U : list str).
Hypothesis Ho : some_order (w_order w).
Hypothesis Hs : separate w r U.

Lemma dated_texts cached v : up_to_date w U cached -> In v U -> text_of w (Cache cached []) (is_http v) v = document w v.
Proof.
  intros Hd Hv. unfold text_of. cbn [files]. destruct (dict_get str_eqb cached (uri_to_filename v)) as [t|] eqn:E.
  - symmetry. exact (Hd v t Hv E).
  - unfold document. destruct (is_http v) eqn:Eh; [reflexivity|]. rewrite (sep_paths _ _ _ Hs v Hv Eh). reflexivity.
Qed.
Lemma dated_load fuel paths cached cached' : up_to_date w U cached -> up_to_date w U cached' -> (forall x, In x paths -> In (resolve w r x (u ".")) U) ->
  match load_all w r fuel paths (Cache cached []), load_all w r fuel paths (Cache cached' []) with
  | Ok s1, Ok s2 => trees s1 = trees s2
  | Raise e1, Raise e2 => e1 = e2
  | _, _ => False
  end.
Proof.
  intros Hd Hd' He. set (P := fun v b => In v U /\ b = is_http v).
  assert (HP : forall v b, P v b -> uri_to_filename (w_path w v) = uri_to_filename v \/ b = true).
  { intros v b [Hv ->]. destruct (is_http v) eqn:E; [auto|left]. rewrite (sep_paths _ _ _ Hs v Hv E). reflexivity. }
  pose proof (alike_load_all w w r eq_refl eq_refl eq_refl Ho P HP HP fuel paths (Cache cached []) (Cache cached' [])) as H.
  assert (A : CacheProofs.alike w w r P (Cache cached []) (Cache cached' [])).
  { split; [reflexivity|]. split.
    - intros v b [Hv ->]. rewrite !dated_texts by assumption. reflexivity.
    - intros v b v' b' text ref [Hv _] [Hv' ->] En Et Hm. rewrite dated_texts in Et by assumption.
      apply (sep_files _ _ _ Hs) in En; [|assumption|assumption]. subst v'.
      assert (R : refers w r v (resolve w r ref v)) by (exists text, ref; auto).
      split; [exact (sep_closed _ _ _ Hs v _ Hv R)|]. destruct (is_http v) eqn:E; [|apply orb_false_r].
      rewrite (sep_remote _ _ _ Hs v _ Hv R E). reflexivity. }
  specialize (H A (fun x Hx => conj (He x Hx) eq_refl)). unfold alike_res in H.
  destruct (load_all w r fuel paths (Cache cached [])), (load_all w r fuel paths (Cache cached' [])); [exact (proj1 H)|contradiction|contradiction|exact H].
Qed.
End Dated.

(** If what the cache has of the documents is what they say now, opening does what it does with an empty
    cache: it gives the same filing, or raises the same exception. *)
Theorem C71_up_to_date_partial lib so fs w parse_file fuel cached path : some_order (w_order w) ->
  (forall l paths r es, load_path fs fuel path = Ok l -> parse_catalog parse_file l = Ok (paths, r, es) ->
     exists U, separate w r U /\ (forall x, In x paths -> In (resolve w r x (u ".")) U) /\ up_to_date w U cached) ->
  same_outcome (open_filing lib so fs w parse_file fuel cached path) (open_filing lib so fs w parse_file fuel [] path).
Proof.
  intros Ho H. unfold open_filing, open_path, create_parser, open_context.
  destruct (load_path fs fuel path) as [l|]; [|reflexivity]. cbn [bind]. destruct l as [|p l]; [reflexivity|].
  destruct (parse_catalog parse_file (p :: l)) as [[[paths r] es]|] eqn:Ec; [|reflexivity]. cbn [bind].
  destruct (H _ paths r es eq_refl Ec) as (U & Hs & He & Hd).
  assert (Hd' : up_to_date w U []) by (intros v t _ X; discriminate X).
  pose proof (dated_load w r U Ho Hs fuel paths cached [] Hd Hd' He) as D.
  destruct (load_all w r fuel paths (Cache cached [])) as [s1|e1], (load_all w r fuel paths (Cache [] [])) as [s2|e2]; try contradiction; cbn [bind]; [|exact D].
  destruct (forallb is_xml_file paths); [|destruct (forallb is_known_file paths); [|reflexivity]]; cbn [bind]; rewrite <- D;
    match goal with |- context [parse_opened ?a ?b ?c ?d ?e ?g] => destruct (parse_opened a b c d e g) as [f'|] end; reflexivity.
Qed.

(** ** In another order *)

(** A later session, in which sets have another order, finds the same documents in the cache. *)
Theorem C110_any_order_partial {tree} (w : world tree) r U order fuel fuel' entry entry' s :
  some_order (w_order w) -> some_order order -> separate w r U -> (forall x, In x entry <-> In x entry') ->
  (forall x, In x entry -> In (resolve w r x (u ".")) U) -> length U < fuel -> length U < fuel' ->
  load_all w r fuel entry empty_cache = Ok s ->
  exists s', load_all (offline (OrderProps.reordered w order)) r fuel' entry' (Cache (files s) []) = Ok s' /\ Permutation (trees s) (trees s').
Proof.
  intros Ho Ho' Hs Hee He F F' E. set (roots := map (fun x => resolve w r x (u ".")) entry). set (w2 := OrderProps.reordered w order).
  pose proof (load_all_ok w r U Ho Hs fuel entry F He) as L. rewrite E in L. destruct L as (N & Hi & Hr & Hn). cbn [app] in *.
  assert (Hin : forall v, reachable (refers w r) roots v -> In v N).
  { intros v Hv. induction Hv as [v Hv|v x _ IH Hx]; [apply Hr, Hv|]. apply (proj2 (Hn v IH)), Hx. }
  destruct Hi as (_ & _ & HU & Ht & Hf & _).
  pose proof (OrderProps.C109_found_partial w r U Hs (w_order w) order fuel fuel' entry entry' Ho Ho' Hee He F F') as X.
  assert (Ew : OrderProps.reordered w (w_order w) = w) by (destruct w; reflexivity). rewrite Ew, E in X. fold w2 in X.
  destruct (load_all w2 r fuel' entry' empty_cache) as [s2|] eqn:E2; [|contradiction].
  set (P := fun v b => reachable (refers w r) roots v /\ b = is_http v).
  assert (HP : forall v b, P v b -> uri_to_filename (w_path w v) = uri_to_filename v \/ b = true).
  { intros v b [Hv ->]. destruct (is_http v) eqn:Eh; [auto|left]. rewrite (sep_paths _ _ _ Hs v (HU v (Hin v Hv)) Eh). reflexivity. }
  assert (Td : forall v, reachable (refers w r) roots v -> text_of (offline w2) (Cache (files s) []) (is_http v) v = document w v).
  { intros v Hv. unfold text_of. cbn [files]. rewrite (Hf v (Hin v Hv)). destruct (Ht v (Hin v Hv)) as (t & (p & text & _ & Ed & _) & _). rewrite Ed. reflexivity. }
  assert (A : CacheProofs.alike (offline w2) w2 r P (Cache (files s) []) empty_cache).
  { split; [reflexivity|]. split.
    - intros v b [Hv ->]. rewrite Td by exact Hv. unfold text_of, document. cbn [files empty_cache dict_get]. destruct (is_http v) eqn:Eh; [reflexivity|].
      cbn [w2 OrderProps.reordered w_local w_path]. rewrite (sep_paths _ _ _ Hs v (HU v (Hin v Hv)) Eh). reflexivity.
    - intros v b v' b' text ref [Hv _] [Hv' ->] En Et Hm. rewrite Td in Et by exact Hv'.
      apply (sep_files _ _ _ Hs) in En; [|exact (HU v (Hin v Hv))|exact (HU v' (Hin v' Hv'))]. subst v'.
      assert (R : refers w r v (resolve w r ref v)) by (exists text, ref; auto).
      split; [exact (reach_step _ _ v _ Hv R)|]. change (resolve (offline w2) r ref v) with (resolve w r ref v).
      destruct (is_http v) eqn:Eh; [|apply orb_false_r]. rewrite (sep_remote _ _ _ Hs v _ (HU v (Hin v Hv)) R Eh). reflexivity. }
  pose proof (alike_load_all (offline w2) w2 r eq_refl eq_refl eq_refl Ho' P HP HP fuel' entry' _ _ A) as Y. rewrite E2 in Y.
  destruct (load_all (offline w2) r fuel' entry' (Cache (files s) [])) as [s'|]; cbn [alike_res] in Y.
  - exists s'. split; [reflexivity|]. destruct (Y (fun x Hx => conj (reach_root _ _ _ (in_map _ _ _ (proj2 (Hee x) Hx))) eq_refl)) as [-> _]. exact X.
  - destruct (Y (fun x Hx => conj (reach_root _ _ _ (in_map _ _ _ (proj2 (Hee x) Hx))) eq_refl)).
Qed.

(** ** An example *)

(** A local filing: an instance with one fact and its schema. *)
Fixpoint tree_of (x : xml) : InlineFilingModel.tree :=
  let 'Xml tag attrs sc text kids := x in InlineFilingModel.Tree tag attrs sc text (map tree_of kids) None.
Definition k_instance : str := u "<xbrl xlink:href='a.xsd'/>".
Definition k_schema : str := u "<schema/>".
Definition k_disk : list (str * str) := [(u "f/i.xml", k_instance); (u "f/a.xsd", k_schema)].
Definition k_trees : list (str * InlineFilingModel.tree) := [(k_instance, tree_of FilingProps.x_instance_doc); (k_schema, tree_of FilingProps.x_schema)].
Definition k_world : world InlineFilingModel.tree :=
  World (fun _ ref => ref) (fun p => p) (fun _ => None) (dict_get str_eqb k_disk) (fun _ text => dict_get str_eqb k_trees text) (fun l => l).
Definition k_fs : fsys := Fsys (fun p => str_eqb p (u "f/i.xml")) (fun _ => false) (fun _ => []) (fun _ => None).
Definition k_library : library := Library (FootModel.Env (fun _ => true) (fun _ => None) (fun l => l) (fun _ => [])) (fun _ => []) CtxProps.iso_date (fun _ => None) (fun _ => Ok true) (fun _ => []) (fun _ => 1%Q).
Definition k_orders : set_orders := SetOrders (fun _ l => l) (fun _ l => l) (fun l => l).
Definition k_open (w : world InlineFilingModel.tree) (cached : list (str * str)) : res (opened * list (str * str)) :=
  open_filing k_library k_orders k_fs w (fun _ => None) 20 cached (u "f/i.xml").
Definition k_seen (r : res (opened * list (str * str))) : option (list str * list str * list (str * str)) :=
  match r with
  | Ok (OpenedXml f, kept) => Some (map f_value (FilingModel.get_all_facts f), map (fun e => q_local (e_name e)) (FilingModel.get_all_report_elements f), kept)
  | _ => None
  end.
Example C110_example : let kept := [(u "i.xml", k_instance); (u "a.xsd", k_schema)] in
  k_seen (k_open k_world []) = Some ([u "7"], [u "Cash"; u "Assets"], kept) /\
  k_seen (k_open (offline k_world) kept) = Some ([u "7"], [u "Cash"; u "Assets"], kept) /\
  k_open (offline k_world) [] = Raise OSError.
Proof. vm_compute. repeat split; reflexivity. Qed.

Print Assumptions C110_again.
Print Assumptions C110_offline.
Print Assumptions C110_kept.
Print Assumptions C71_up_to_date_partial.
Print Assumptions C110_any_order_partial.
