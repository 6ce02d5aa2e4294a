(** Theorems about taxonomy discovery: C35, C36, C37, C54, C55. *)
From Coq Require Import Permutation.
From Verif Require Import Base Regex NetSpec ErrBase ErrTable ErrModel CtxModel
  DtsModel DtsSpec DtsRefs DtsProofs DtsLoad.
Local Open Scope nat_scope.

(** * C54: the references found in a document *)

(** Only attribute texts that refer to a document are reported, each once. *)
Theorem C54_sound text rs : extract_references text = Ok rs -> NoDup rs /\ forall r, In r rs -> mentions text r.
Proof. intros H. split; [eapply extract_nodup; eauto|eapply extract_sound; eauto]. Qed.

(** On texts without attribute values that end like an attribute name, all of them are. *)
Theorem C54_exact_partial text rs : tame text -> extract_references text = Ok rs ->
  forall r, In r rs <-> mentions text r.
Proof. intros T H r. split; [eapply extract_sound; eauto|eapply extract_complete; eauto]. Qed.

(** The extraction fails exactly when a reference has two [#] or a [schemaLocation] is blank. *)
Theorem C54_fails_iff text : tame text ->
  ((exists e, extract_references text = Raise e) <->
   (exists a b c, has_attribute text (u ":href=") (a ++ ch "#" :: b ++ ch "#" :: c)) \/
   (exists body, has_attribute text (u "schemaLocation=") body /\ forall c, In c body -> is_space c = true)).
Proof.
  intros T. split.
  - intros (e & E). apply extract_raise in E as [_ H]. exact H.
  - intros H. destruct (extract_references text) as [rs|e] eqn:E; [|eauto].
    exfalso. eapply extract_bad; eauto.
Qed.

(** Deciding [tame]: the quotes cut the text into pieces; no two neighbouring pieces both end like
    the name of a referencing attribute. *)
Definition ends_key (rcur : str) : bool :=
  starts_with (rev (u ":href=")) rcur || starts_with (rev (u "schemaLocation=")) rcur.

Fixpoint tameb (rcur : str) (prev : bool) (s : str) : bool :=
  match s with
  | [] => true
  | c :: t => if cset_mem (quotes false) c
              then negb (prev && ends_key rcur) && tameb [] (ends_key rcur) t
              else tameb (c :: rcur) prev t
  end.

Lemma tameb_seg seg : (forall c, In c seg -> ~ quote c) -> forall rcur prev t,
  tameb rcur prev (seg ++ t) = tameb (rev seg ++ rcur) prev t.
Proof.
  induction seg as [|c seg IH]; intros H rcur prev t; [reflexivity|]. cbn [app tameb].
  destruct (cset_mem (quotes false) c) eqn:E.
  - apply quotes_spec in E. exfalso; apply (H c); cbn; auto.
  - rewrite IH by (intros; apply H; cbn; auto). cbn [rev]. rewrite <- app_assoc. reflexivity.
Qed.

Lemma tameb_suffix pre : forall rcur prev t, tameb rcur prev (pre ++ t) = true ->
  exists rcur' prev', tameb rcur' prev' t = true.
Proof.
  induction pre as [|c pre IH]; intros rcur prev t; cbn [app tameb]; [eauto|].
  destruct (cset_mem (quotes false) c).
  - intros H. apply andb_prop in H as [_ H]. eauto.
  - eauto.
Qed.

Lemma ends_key_true key l : In key [u ":href="; u "schemaLocation="] -> ends_key (rev key ++ l) = true.
Proof.
  intros [<-|[<-|[]]]; unfold ends_key; apply orb_true_iff; [left|right]; apply prefix_spec; eauto.
Qed.

Lemma tameb_sound text : tameb [] false text = true -> tame text.
Proof.
  intros H key body K (pre & q1 & q2 & post & -> & Q1 & Q2 & Hb & Hn) key' K' (b & ->).
  apply tameb_suffix in H as (rcur & prev & H).
  assert (NQ : forall k, In k [u ":href="; u "schemaLocation="] -> forall c, In c k -> ~ quote c).
  { intros k [<-|[<-|[]]]; [apply (key_no_quote href_key 1)|apply (key_no_quote schema_key 2)];
      unfold key_group; auto. }
  rewrite tameb_seg in H by (apply NQ; auto). cbn [tameb] in H.
  assert (E1 : cset_mem (quotes false) q1 = true) by (apply quotes_spec; auto).
  assert (E2 : cset_mem (quotes false) q2 = true) by (apply quotes_spec; auto).
  rewrite E1, ends_key_true in H by auto. apply andb_prop in H as [_ H].
  rewrite tameb_seg in H by auto. cbn [tameb] in H. rewrite E2 in H.
  rewrite rev_app_distr, app_nil_r, ends_key_true in H by auto. discriminate.
Qed.

(** A schema with an import, a linkbase reference with a fragment, one without document, and a
    [schemaLocation] with a namespace in front. *)
Definition example_text : str :=
  u "<xs:import schemaLocation='../b.xsd'/><l:ref xlink:href='c.xml#id'/><l:loc xlink:href='#here'/><x xsi:schemaLocation='http://ns d.xsd'/><l:ref xlink:href='c.xml'/>".

Example C54_example : tame example_text /\
  extract_references example_text = Ok [u "../b.xsd"; u "d.xsd"; u "c.xml"].
Proof. split; [apply tameb_sound|]; vm_compute; reflexivity. Qed.

(** The claim that every reference of an XML document is found fails: blanks around the equals
    sign are allowed in XML. *)
Definition spaced_text : str := u "<xs:import schemaLocation = 'b.xsd'/>".
Definition two_pairs : str := u "<x xsi:schemaLocation='http://a a.xsd http://b b.xsd'/>".
Definition commented : str := u "<!-- <xs:import schemaLocation='old.xsd'/> -->".

(** A reference in the XML sense: blanks are allowed around the equals sign, and every second word
    of an [xsi:schemaLocation] is a document. *)
Definition xml_reference (text r : str) : Prop :=
  (exists pre b1 b2 q1 q2 post, text = pre ++ u " schemaLocation" ++ b1 ++ u "=" ++ b2 ++ q1 :: r ++ q2 :: post /\
     (forall c, In c (b1 ++ b2) -> is_space c = true) /\ quote q1 /\ quote q2 /\
     r <> [] /\ (forall c, In c r -> ~ quote c /\ is_space c = false)) \/
  (exists body i, has_attribute text (u " xsi:schemaLocation=") body /\
     nth_error (words [] body) (2 * i + 1) = Some r).

Theorem C54_refuted :
  (exists text rs r, extract_references text = Ok rs /\ xml_reference text r /\ ~ In r rs) /\
  (exists rs r, extract_references two_pairs = Ok rs /\ xml_reference two_pairs r /\ ~ In r rs) /\
  extract_references commented = Ok [u "old.xsd"] /\
  extract_references (u "<l:loc xlink:href='a.xsd#b#c'/>") = Raise ValueError.
Proof.
  split; [|split; [|split]].
  - exists spaced_text, [], (u "b.xsd"). split; [vm_compute; reflexivity|split; [|intros []]].
    left. exists (u "<xs:import"), (u " "), (u " "), 39%N, 39%N, (u "/>").
    split; [reflexivity|]. split; [|split; [left; reflexivity|split; [left; reflexivity|split; [discriminate|]]]].
    + intros c Hc. cbn in Hc. destruct Hc as [<-|[<-|[]]]; reflexivity.
    + intros c Hc. cbn in Hc. unfold quote.
      repeat (destruct Hc as [<-|Hc]; [split; [intros [F|F]; discriminate|reflexivity]|]). destruct Hc.
  - exists [u "b.xsd"], (u "a.xsd"). split; [vm_compute; reflexivity|split].
    + right. exists (u "http://a a.xsd http://b b.xsd"), 0. split; [|vm_compute; reflexivity].
      exists (u "<x"), 39%N, 39%N, (u "/>"). split; [reflexivity|].
      split; [left; reflexivity|split; [left; reflexivity|split; [discriminate|]]].
      intros c Hc. assert (F : forallb (cset_mem (quotes true)) (u "http://a a.xsd http://b b.xsd") = true)
        by (vm_compute; reflexivity).
      rewrite forallb_forall in F. apply not_quotes_spec. auto.
    + vm_compute. intros [F|[]]. discriminate.
  - vm_compute. reflexivity.
  - vm_compute. reflexivity.
Qed.

(** * C35: loading *)

Lemma map_NoDup_in {A B} (f : A -> B) l : (forall a b, In a l -> In b l -> f a = f b -> a = b) ->
  NoDup l -> NoDup (map f l).
Proof.
  intros Hf Hn. induction Hn as [|x l Hx Hn IH]; cbn; constructor.
  - intros F. apply in_map_iff in F as (y & E & Hy). apply Hf in E; cbn; auto. subst; auto.
  - apply IH. intros a b Ha Hb. apply Hf; cbn; auto.
Qed.

(** The documents loaded are exactly the ones reachable from the entry points, each once and each
    with its own content. *)
Theorem C35_exact_partial {tree} (w : world tree) r U fuel entrypoints s :
  some_order (w_order w) -> separate w r U -> (forall x, In x entrypoints -> In (resolve w r x (u ".")) U) ->
  length U < fuel -> load_all w r fuel entrypoints empty_cache = Ok s ->
  let roots := map (fun x => resolve w r x (u ".")) entrypoints in
  NoDup (dict_keys (trees s)) /\
  (forall k, In k (dict_keys (trees s)) <-> exists v, reachable (refers w r) roots v /\ k = normalize_uri v) /\
  (forall v, reachable (refers w r) roots v ->
     exists t, loads_as w v t /\ dict_get str_eqb (trees s) (normalize_uri v) = Some t).
Proof.
  intros Ho Hs He Hf E roots. pose proof (load_all_ok w r U Ho Hs fuel entrypoints Hf He) as H.
  rewrite E in H. destruct H as (N & Hi & Hr & Hn). cbn [app] in *.
  assert (R : forall v, In v N <-> reachable (refers w r) roots v).
  { intros v. split; [apply Hn|]. intros Hv. induction Hv as [v Hv|v x _ IH Hx]; [auto|].
    apply (Hn v IH). auto. }
  destruct Hi as (Hk & Hd & Hi & Ht & _). split; [|split].
  - rewrite Hk. apply map_NoDup_in; auto.
    intros a b Ha Hb Hab. apply (sep_trees _ _ _ Hs); auto.
  - intros k. rewrite Hk, in_map_iff. split.
    + intros (v & <- & Hv). exists v. split; [apply R; auto|auto].
    + intros (v & Hv & ->). exists v. split; [auto|apply R; auto].
  - intros v Hv. apply Ht. apply R; auto.
Qed.

(** Loading succeeds exactly when all of them can be loaded; and it always comes to an end. *)
Theorem C35_succeeds_iff {tree} (w : world tree) r U fuel entrypoints :
  some_order (w_order w) -> separate w r U -> (forall x, In x entrypoints -> In (resolve w r x (u ".")) U) ->
  length U < fuel ->
  let roots := map (fun x => resolve w r x (u ".")) entrypoints in
  ((exists s, load_all w r fuel entrypoints empty_cache = Ok s) <->
   forall v, reachable (refers w r) roots v -> exists t, loads_as w v t) /\
  load_all w r fuel entrypoints empty_cache <> Raise OutOfFuel.
Proof.
  intros Ho Hs He Hf roots. split.
  - split.
    + intros (s & E) v Hv.
      destruct (C35_exact_partial w r U fuel entrypoints s Ho Hs He Hf E) as (_ & _ & H).
      destruct (H v Hv) as (t & Ht & _). eauto.
    + intros H. pose proof (load_all_ok w r U Ho Hs fuel entrypoints Hf He) as L.
      destruct (load_all w r fuel entrypoints empty_cache) as [s|e]; [eauto|].
      destruct L as (_ & b & Hb & Hbad). destruct (H b Hb) as (t & Ht). exfalso. eapply Hbad; eauto.
  - pose proof (load_all_ok w r U Ho Hs fuel entrypoints Hf He) as L.
    destruct (load_all w r fuel entrypoints empty_cache) as [s|e]; [discriminate|].
    destruct L as [He' _]. congruence.
Qed.

(** Loading ends even when the caches confuse documents, provided that only finitely many URIs can
    come up. *)
Theorem C35_terminates_partial {tree} (w : world tree) r U fuel entrypoints :
  some_order (w_order w) -> closed_for_all_texts w r U ->
  (forall x, In x entrypoints -> In (resolve w r x (u ".")) U) -> length U < fuel ->
  load_all w r fuel entrypoints empty_cache <> Raise OutOfFuel.
Proof. intros Ho Hc He Hf. exact (load_all_grows w r U Ho Hc fuel entrypoints Hf He). Qed.

(** A cyclic taxonomy of three documents (with a diamond). *)
Definition doc_a : str := u "<s xlink:href='http://t.org/b.xsd'/><s xlink:href='http://t.org/c.xsd#x'/>".
Definition doc_b : str := u "<s schemaLocation='http://t.org/a.xsd'/>".
Definition doc_c : str := u "<s schemaLocation='http://t.org/b.xsd'/><s xlink:href='#y'/>".
Definition uri_a : str := u "http://t.org/a.xsd".
Definition uri_b : str := u "http://t.org/b.xsd".
Definition uri_c : str := u "http://t.org/c.xsd".
Definition web (uri : str) : option str :=
  dict_get str_eqb [(uri_a, doc_a); (uri_b, doc_b); (uri_c, doc_c)] uri.
Definition example_world : world str :=
  World (fun _ ref => ref) (fun p => p) web (fun _ => None) (fun _ text => Some text) (@rev str).

Lemma refers_compute {tree} (w : world tree) r v text rs x : document w v = Some text -> tameb [] false text = true ->
  extract_references text = Ok rs -> refers w r v x -> In x (map (fun ref => resolve w r ref v) rs).
Proof.
  intros Hd Ht He (text' & ref & Hd' & Hm & ->). assert (text' = text) by congruence. subst.
  apply in_map_iff. exists ref. split; [reflexivity|]. eapply extract_complete; eauto. apply tameb_sound; auto.
Qed.

Lemma example_refers v x : In v [uri_a; uri_b; uri_c] -> refers example_world [] v x -> In x [uri_a; uri_b; uri_c].
Proof.
  intros Hv H.
  assert (G : forall text rs, document example_world v = Some text -> tameb [] false text = true ->
    extract_references text = Ok rs -> In x (map (fun ref => resolve example_world [] ref v) rs))
    by (intros; eapply refers_compute; eauto).
  destruct Hv as [<-|[<-|[<-|[]]]].
  - specialize (G doc_a [uri_b; uri_c]). cbn [In].
    destruct G as [<-|[<-|[]]]; try (vm_compute; reflexivity); vm_compute; tauto.
  - specialize (G doc_b [uri_a]). cbn [In].
    destruct G as [<-|[]]; try (vm_compute; reflexivity); vm_compute; tauto.
  - specialize (G doc_c [uri_b]). cbn [In].
    destruct G as [<-|[]]; try (vm_compute; reflexivity); vm_compute; tauto.
Qed.

Example C35_example : some_order (w_order example_world) /\ separate example_world [] [uri_a; uri_b; uri_c] /\
  resolve example_world [] uri_a (u ".") = uri_a /\
  load_all example_world [] 4 [uri_a] empty_cache =
    Ok (Cache [(u "t_org_a_xsd.xsd", doc_a); (u "t_org_c_xsd.xsd", doc_c); (u "t_org_b_xsd.xsd", doc_b)]
              [(uri_a, doc_a); (uri_c, doc_c); (uri_b, doc_b)]).
Proof.
  split; [intros l; apply Permutation_rev|]. split; [|split; vm_compute; reflexivity].
  split.
  - apply example_refers.
  - intros v x Hv Hx. destruct Hv as [<-|[<-|[<-|[]]]]; destruct Hx as [<-|[<-|[<-|[]]]];
      intros E; vm_compute in E; first [discriminate E|reflexivity].
  - intros v x Hv Hx. destruct Hv as [<-|[<-|[<-|[]]]]; destruct Hx as [<-|[<-|[<-|[]]]];
      intros E; vm_compute in E; first [discriminate E|reflexivity].
  - intros v Hv. destruct Hv as [<-|[<-|[<-|[]]]]; vm_compute; discriminate.
  - intros v x Hv H _. apply example_refers in H; auto.
    destruct H as [<-|[<-|[<-|[]]]]; vm_compute; reflexivity.
  - intros v text Hv Hd. apply tameb_sound.
    destruct Hv as [<-|[<-|[<-|[]]]]; vm_compute in Hd; injection Hd as <-; vm_compute; reflexivity.
Qed.

(** ** Local documents that refer to each other through the parent directory are loaded for ever:
    the URIs get longer and longer. *)

Definition side_dir (x : bool) : str := if x then u "a" else u "b".
Definition side_name (x : bool) : str := if x then u "x.xsd" else u "y.xsd".
Definition side_ref (x : bool) : str := u "../" ++ side_dir x ++ u "/" ++ side_name x.
Definition side_text (x : bool) : str := u "<xs:import schemaLocation='" ++ side_ref (negb x) ++ u "'/>".
Definition disk (path : str) : option str :=
  if ends_with (u "a/x.xsd") path then Some (side_text true)
  else if ends_with (u "b/y.xsd") path then Some (side_text false) else None.
Definition cyclic_world (order : list str -> list str) : world unit :=
  World (fun _ ref => ref) (fun p => p) (fun _ => None) disk (fun _ _ => Some tt) order.

Lemma order_single {A} (f : list A -> list A) x : some_order f -> f [x] = [x].
Proof. intros H. apply Permutation_length_1_inv. apply H. Qed.

Lemma join_app sep (l m : list str) : l <> [] -> m <> [] -> join sep (l ++ m) = join sep l ++ sep ++ join sep m.
Proof.
  intros Hl Hm. induction l as [|p l IH]; [congruence|]. destruct l as [|q l].
  - cbn [app]. destruct m; [congruence|]. reflexivity.
  - cbn [app] in *. rewrite !join_cons. rewrite IH by discriminate. rewrite <- !app_assoc. reflexivity.
Qed.

Definition clean (d : list str) : Prop :=
  forall p, In p d -> ~ In (ch "/") p /\ ~ In backslash p.

Definition below (d : list str) (x : bool) : str := join (u "/") (d ++ [side_name x]).

Lemma clean_in d c : clean d -> In c (join (u "/") d) -> c <> backslash.
Proof.
  intros Hc Hi ->. induction d as [|p d IH]; [destruct Hi|].
  destruct d as [|q d].
  - cbn in Hi. apply (Hc p); cbn; auto.
  - rewrite join_cons in Hi. apply in_app_or in Hi as [Hi|Hi]; [apply (Hc p); cbn; auto|].
    apply in_app_or in Hi as [Hi|Hi]; [cbn in Hi; destruct Hi as [F|[]]; discriminate F|].
    apply IH; auto. intros x Hx. apply Hc. cbn; auto.
Qed.

Lemma resolve_side order d x : clean (u "a" :: d) ->
  resolve (cyclic_world order) [] (side_ref x) (below (u "a" :: d) (negb x)) =
  below ((u "a" :: d) ++ [u ".."; side_dir x]) x.
Proof.
  intros Hc. unfold resolve. cbn [rewrite]. unfold absolute.
  assert (C2 : clean ((u "a" :: d) ++ [side_name (negb x)])).
  { intros p Hp. apply in_app_or in Hp as [Hp|[<-|[]]]; [auto|].
    destruct x; vm_compute; intuition discriminate. }
  assert (B : mem_char backslash (below (u "a" :: d) (negb x)) = false).
  { apply mem_char_false. intros F. eapply clean_in; eauto. }
  assert (H1 : is_http (side_ref x) = false) by (destruct x; reflexivity).
  assert (H2 : is_http (below (u "a" :: d) (negb x)) = false).
  { unfold below, is_http. cbn [app]. destruct (d ++ [side_name (negb x)]); reflexivity. }
  assert (B2 : mem_char backslash (side_ref x) = false) by (destruct x; reflexivity).
  rewrite H1, H2, B, B2. cbn [orb negb]. unfold below at 1.
  rewrite (split_join (ch "/")).
  - rewrite removelast_last.
    assert (S : split_char (ch "/") (side_ref x) = [u ".."; side_dir x; side_name x]) by (destruct x; reflexivity).
    rewrite S. unfold below. rewrite <- app_assoc. reflexivity.
  - cbn; discriminate.
  - intros p Hp. apply C2; auto.
Qed.

Lemma below_ends d x : exists pre, below (d ++ [u ".."; side_dir x]) x = pre ++ side_dir x ++ u "/" ++ side_name x.
Proof.
  unfold below. rewrite <- app_assoc. cbn [app].
  destruct d as [|p d].
  - exists (u "../"). reflexivity.
  - rewrite join_app by discriminate. cbn [join].
    exists (join (u "/") (p :: d) ++ u "/" ++ u ".." ++ u "/"). rewrite <- !app_assoc. reflexivity.
Qed.

Definition cyc_inv (s : cache unit) (n : nat) : Prop :=
  (forall k, In k (dict_keys (trees s)) -> length k < n) /\
  (forall x, dict_get str_eqb (files s) (side_name x) = None \/
             dict_get str_eqb (files s) (side_name x) = Some (side_text x)).

Lemma cyclic_step order (Ho : some_order order) fuel : forall d x s, clean (u "a" :: d) ->
  cyc_inv s (length (below ((u "a" :: d) ++ [u ".."; side_dir x]) x)) ->
  add_etree_recursive (cyclic_world order) [] fuel (side_ref x) (below (u "a" :: d) (negb x)) s = Raise OutOfFuel.
Proof.
  induction fuel as [|fuel IH]; intros d x s Hc [Hk Hf]; [reflexivity|].
  cbn [add_etree_recursive]. rewrite resolve_side by auto.
  set (v := below ((u "a" :: d) ++ [u ".."; side_dir x]) x) in *.
  assert (C2 : clean (u "a" :: d ++ [u ".."; side_dir x])).
  { intros p [<-|Hp]; [apply Hc; cbn; auto|]. apply in_app_or in Hp as [Hp|Hp]; [apply Hc; cbn; auto|].
    destruct Hp as [<-|[<-|[]]]; destruct x; vm_compute; intuition discriminate. }
  assert (Hh : is_http v = false).
  { unfold v, below, is_http. cbn [app]. destruct ((d ++ _) ++ _); reflexivity. }
  assert (Hh2 : is_http (below (u "a" :: d) (negb x)) = false).
  { unfold below, is_http. cbn [app]. destruct (d ++ [side_name (negb x)]); reflexivity. }
  assert (NB : ~ In backslash v).
  { intros F. eapply (clean_in (((u "a" :: d) ++ [u ".."; side_dir x]) ++ [side_name x]) backslash); auto.
    intros p Hp. apply in_app_or in Hp as [Hp|[<-|[]]]; [apply C2; exact Hp|].
    destruct x; vm_compute; intuition discriminate. }
  assert (Hnorm : normalize_uri v = v) by (unfold normalize_uri; rewrite Hh; apply subst_none; auto).
  assert (Ht : has_etree s v = false).
  { unfold has_etree, dict_mem. destruct (dict_get str_eqb (trees s) (normalize_uri v)) as [t|] eqn:E; [|reflexivity].
    exfalso. apply (dict_get_in _ str_eqb_spec) in E. rewrite Hnorm in E.
    assert (K : In v (dict_keys (trees s))) by (apply in_map_iff; exists (v, t); auto).
    apply Hk in K. lia. }
  rewrite Ht.
  destruct (below_ends (u "a" :: d) x) as (pre & Ev). fold v in Ev.
  assert (Hp : get_parser v = Ok XmlParser).
  { rewrite Ev. unfold get_parser, ends_with. rewrite rev_app_distr. destruct x; reflexivity. }
  assert (Hl : disk v = Some (side_text x)).
  { rewrite Ev. unfold disk, ends_with. rewrite rev_app_distr. destruct x; reflexivity. }
  assert (Hn : uri_to_filename v = side_name x).
  { assert (E2 : v = (pre ++ side_dir x) ++ ch "/" :: side_name x) by (rewrite Ev, <- app_assoc; reflexivity).
    rewrite E2. apply filename_local; [rewrite <- E2; auto|auto| |]; destruct x; vm_compute; intuition discriminate. }
  rewrite Hp. cbn [bind].
  assert (Hfetch : exists s1, fetch (cyclic_world order) s (is_http v || is_http (below (u "a" :: d) (negb x))) v =
    Ok (side_text x, s1) /\ trees s1 = trees s /\ dict_get str_eqb (files s1) (side_name x) = Some (side_text x) /\
    (forall y, dict_get str_eqb (files s1) (side_name y) = None \/ dict_get str_eqb (files s1) (side_name y) = Some (side_text y))).
  { rewrite Hh, Hh2. cbn [orb]. unfold fetch, has_file, get_file, dict_mem. rewrite Hn.
    destruct (Hf x) as [E|E]; rewrite E.
    - cbn [w_path w_local cyclic_world]. rewrite Hl. cbn [or_error bind].
      exists (add_file s v (side_text x)). unfold add_file. cbn [files trees]. rewrite Hn.
      rewrite (dict_get_set_same _ str_eqb_spec). cbn [or_error bind].
      repeat split; auto. intros y. destruct (Bool.bool_dec y x) as [->|Hyx].
      + right. apply (dict_get_set_same _ str_eqb_spec).
      + rewrite (dict_get_set_other _ str_eqb_spec); [apply Hf|].
        destruct x, y; try congruence; vm_compute; discriminate.
    - cbn [or_error bind]. exists s. auto. }
  destruct Hfetch as (s1 & -> & Et & Efx & Ef). cbn [bind fst snd].
  cbn [w_parse cyclic_world or_error bind].
  unfold get_file. unfold add_etree at 1. cbn [files]. rewrite Hn, Efx. cbn [or_error bind].
  assert (Hx : extract_references (side_text x) = Ok [side_ref (negb x)]) by (destruct x; vm_compute; reflexivity).
  rewrite Hx. cbn [bind w_order cyclic_world]. rewrite (order_single order) by auto.
  cbn [for_each].
  assert (R : add_etree_recursive (cyclic_world order) [] fuel (side_ref (negb x)) v (add_etree s1 v tt) = Raise OutOfFuel).
  { unfold v at 1. pattern x at 3. rewrite <- (Bool.negb_involutive x). cbv beta.
    apply (IH (d ++ [u ".."; side_dir x])).
    - exact C2.
    - split.
      + unfold add_etree. cbn [trees]. rewrite Hnorm, Et.
        rewrite (dict_set_keys_new _ str_eqb_spec).
        * intros k Hin. unfold dict_keys in Hin. rewrite map_app in Hin.
          assert (L : length v < length (below ((u "a" :: d ++ [u ".."; side_dir x]) ++ [u ".."; side_dir (negb x)]) (negb x))).
          { unfold v, below. cbn [app].
            replace (u "a" :: (d ++ [u ".."; side_dir x]) ++ [side_name x])
              with ((u "a" :: d ++ [u ".."; side_dir x]) ++ [side_name x]) by reflexivity.
            replace (u "a" :: ((d ++ [u ".."; side_dir x]) ++ [u ".."; side_dir (negb x)]) ++ [side_name (negb x)])
              with ((u "a" :: d ++ [u ".."; side_dir x]) ++ [u ".."; side_dir (negb x); side_name (negb x)])
              by (cbn [app]; rewrite <- !app_assoc; reflexivity).
            rewrite !join_app by discriminate. rewrite !app_length. destruct x; cbn; lia. }
          apply in_app_or in Hin as [Hin|[<-|[]]]; [|exact L].
          apply Hk in Hin. lia.
        * intros F. apply Hk in F. lia.
      + exact Ef. }
  rewrite R. reflexivity.
Qed.

(** Two local schemas that import each other, each in its own directory: loading never ends. *)
Theorem C35_terminates_refuted : forall order fuel, some_order order ->
  disk (u "a/x.xsd") = Some (u "<xs:import schemaLocation='../b/y.xsd'/>") /\
  disk (u "b/y.xsd") = Some (u "<xs:import schemaLocation='../a/x.xsd'/>") /\
  load_all (cyclic_world order) [] fuel [u "a/x.xsd"] empty_cache = Raise OutOfFuel.
Proof.
  intros order fuel Ho. split; [vm_compute; reflexivity|split; [vm_compute; reflexivity|]].
  unfold load_all. cbn [for_each]. destruct fuel as [|fuel]; [reflexivity|].
  cbn [add_etree_recursive].
  assert (R : resolve (cyclic_world order) [] (u "a/x.xsd") (u ".") = u "a/x.xsd") by reflexivity.
  rewrite R.
  assert (E : has_etree (@empty_cache unit) (u "a/x.xsd") = false) by reflexivity. rewrite E.
  assert (P : get_parser (u "a/x.xsd") = Ok XmlParser) by reflexivity. rewrite P. cbn [bind].
  assert (F : fetch (cyclic_world order) empty_cache (is_http (u "a/x.xsd") || is_http (u ".")) (u "a/x.xsd") =
    Ok (side_text true, Cache [(side_name true, side_text true)] [])) by (vm_compute; reflexivity).
  rewrite F. cbn [bind fst snd]. cbn [w_parse cyclic_world or_error bind].
  assert (G : get_file (add_etree (Cache [(side_name true, side_text true)] []) (u "a/x.xsd") tt) (u "a/x.xsd") =
    Ok (side_text true)) by (vm_compute; reflexivity).
  rewrite G. cbn [bind].
  assert (X : extract_references (side_text true) = Ok [side_ref false]) by (vm_compute; reflexivity).
  rewrite X. cbn [bind w_order cyclic_world]. rewrite (order_single order) by auto. cbn [for_each].
  assert (S : add_etree_recursive (cyclic_world order) [] fuel (side_ref false) (below [u "a"] (negb false))
    (add_etree (Cache [(side_name true, side_text true)] []) (u "a/x.xsd") tt) = Raise OutOfFuel).
  { apply (cyclic_step order Ho fuel [] false).
    - intros p [<-|[]]. vm_compute; intuition discriminate.
    - split.
      + intros k Hk. vm_compute in Hk. destruct Hk as [<-|[]]. vm_compute. lia.
      + intros [|]; [right|left]; vm_compute; reflexivity. }
  change (below [u "a"] (negb false)) with (u "a/x.xsd") in S. rewrite S. reflexivity.
Qed.

(** ** Documents with the same cache file name are confused *)

Definition twin_world : world str :=
  World (fun _ ref => ref) (fun p => p) (fun _ => None)
    (fun p => dict_get str_eqb [(u "a/x.xsd", u "A"); (u "b/x.xsd", u "B")] p)
    (fun _ text => Some text) (fun l => l).

Theorem C35_content_refuted : exists entrypoints s,
  load_all twin_world [] 9 entrypoints empty_cache = Ok s /\
  reachable (refers twin_world []) entrypoints (u "b/x.xsd") /\
  loads_as twin_world (u "b/x.xsd") (u "B") /\
  dict_get str_eqb (trees s) (u "b/x.xsd") = Some (u "A").
Proof.
  exists [u "a/x.xsd"; u "b/x.xsd"], (Cache [(u "x.xsd", u "A")] [(u "a/x.xsd", u "A"); (u "b/x.xsd", u "A")]).
  split; [vm_compute; reflexivity|]. split; [apply reach_root; cbn; auto|]. split; [|vm_compute; reflexivity].
  exists XmlParser, (u "B"). repeat split; try (vm_compute; reflexivity).
  intros Hb.
  assert (G : forall key body, has_attribute (u "B") key body -> False).
  { intros key body (pre & q1 & q2 & post & E & _).
    assert (L : length (u "B") >= 2) by (rewrite E, !app_length; cbn; rewrite app_length; cbn; lia).
    vm_compute in L. lia. }
  destruct Hb as [(a & b & c & H)|(body & H & _)]; eapply G; eauto.
Qed.

(** * C36: cache file names *)

(** Different URIs share a file name. *)
Theorem C36_refuted :
  uri_to_filename (u "http://a.b/c.xsd") = uri_to_filename (u "http://a/b/c.xsd") /\
  uri_to_filename (u "http://a.org/c.xsd") = uri_to_filename (u "https://www.a.org/c.xsd") /\
  uri_to_filename (u "http://a.org/x/c.xsd") = uri_to_filename (u "http://a.org/x_c.xsd") /\
  uri_to_filename (u "2023/report.xsd") = uri_to_filename (u "2024/report.xsd") /\
  ~ (forall v x, uri_to_filename v = uri_to_filename x -> v = x).
Proof.
  do 4 (split; [vm_compute; reflexivity|]).
  intros H. assert (E : u "http://a.b/c.xsd" = u "http://a/b/c.xsd") by (apply H; vm_compute; reflexivity).
  discriminate E.
Qed.

(** Files below one remote directory have different names, if their paths contain none of
    [. : ? \ _] and do not end in "www", and the extension is alphanumeric. *)
Theorem C36_same_base_partial scheme dir p e q f : plain_base scheme dir ->
  plain_path p -> alnum e -> plain_path q -> alnum f ->
  uri_to_filename (scheme ++ dir ++ ch "/" :: p ++ ch "." :: e) =
  uri_to_filename (scheme ++ dir ++ ch "/" :: q ++ ch "." :: f) ->
  p = q /\ e = f.
Proof. exact (filename_http_inj scheme dir p e q f). Qed.

Example C36_example : plain_base (u "http://") (u "www.xbrl.org/taxonomies") /\
  plain_path (u "2024/core/cor-all") /\ alnum (u "xsd") /\
  uri_to_filename (u "http://www.xbrl.org/taxonomies/2024/core/cor-all.xsd") =
    u "xbrl_org_taxonomies_2024_core_cor-all_xsd.xsd".
Proof.
  split; [|split; [|split]].
  - split; [auto|]. split; [|vm_compute; reflexivity]. apply mem_char_false. vm_compute. reflexivity.
  - split.
    + intros c Hc.
      assert (F : forallb (fun c => negb (existsb (N.eqb c) [ch "."; ch ":"; ch "?"; backslash; ch "_"]))
        (u "2024/core/cor-all") = true) by (vm_compute; reflexivity).
      rewrite forallb_forall in F. intros Hi. specialize (F c Hc). cbv beta in F.
      assert (T : existsb (N.eqb c) [ch "."; ch ":"; ch "?"; backslash; ch "_"] = true).
      { apply existsb_exists. exists c. split; [auto|apply N.eqb_refl]. }
      rewrite T in F. discriminate.
    + intros q E. apply (f_equal (@rev N)) in E. rewrite rev_app_distr in E. vm_compute in E. discriminate.
  - split; [vm_compute; discriminate|]. intros c Hc.
    assert (F : forallb is_alnum (u "xsd") = true) by (vm_compute; reflexivity).
    rewrite forallb_forall in F. auto.
  - vm_compute. reflexivity.
Qed.

(** The file name of a local path is its last component, whatever the directory: two files of one
    directory have different names, and files of the same name in different directories share it. *)
Theorem C36_local dir sep name : is_http (dir ++ sep :: name) = false -> sep = ch "/" \/ sep = ch "\" ->
  ~ In (ch "/") name -> ~ In (ch "\") name -> uri_to_filename (dir ++ sep :: name) = name.
Proof. exact (filename_local dir sep name). Qed.

(** * C37: rewriting *)

(** The rule used is the first one that matches, in the order of the catalog. *)
Theorem C37_first_match rs uri :
  (exists l rule m, rs = l ++ rule :: m /\ (forall x, In x l -> ~ matches uri x) /\
     matches uri rule /\ rewritten_by rule uri (rewrite rs uri)) \/
  ((forall x, In x rs -> ~ matches uri x) /\ rewrite rs uri = uri).
Proof. exact (rewrite_first rs uri). Qed.

(** Without rules behind a rule with a shorter prefix, it is the one with the longest prefix. *)
Theorem C37_longest_partial rs uri : longer_first rs -> rewritten_by_longest rs uri (rewrite rs uri).
Proof.
  intros Hl. destruct (rewrite_first rs uri) as [(l & rule & m & -> & Hn & Hm & Hr)|[Hn Hr]].
  - left. exists rule. split; [|exact Hr]. split; [apply in_or_app; right; cbn; auto|split; [exact Hm|]].
    intros other Ho Hmo. apply in_app_or in Ho as [Ho|[<-|Ho]].
    + exfalso. eapply Hn; eauto.
    + lia.
    + destruct (le_lt_dec (length (fst other)) (length (fst rule))) as [|L]; [auto|exfalso].
      apply in_split in Ho as (m1 & m2 & ->).
      apply (Hl l rule m1 other m2); [reflexivity|].
      destruct Hm as (t1 & E1). destruct Hmo as (t2 & E2).
      eapply prefixes_comparable; eauto. lia.
  - right. auto.
Qed.

(** The condition is necessary: otherwise some URI is rewritten by a rule that is not the longest. *)
Theorem C37_longest_only_if rs l a m b n rest : NoDup (map fst rs) ->
  rs = l ++ a :: m ++ b :: n -> fst b = fst a ++ rest ->
  exists uri rule, In rule rs /\ rewritten_by rule uri (rewrite rs uri) /\ ~ best_rule rs uri rule.
Proof.
  intros Hnd -> Eb.
  exists (fst b). destruct (rewrite_first (l ++ a :: m ++ b :: n) (fst b)) as [(l' & rule & m' & E & Hn & Hm & Hr)|[Hn _]].
  - exists rule. split; [rewrite E; apply in_or_app; right; cbn; auto|]. split; [exact Hr|].
    intros (_ & _ & Hbest).
    assert (Lb : length (fst b) <= length (fst rule)).
    { apply Hbest; [apply in_or_app; right; right; apply in_or_app; right; cbn; auto|].
      exists []. rewrite app_nil_r. reflexivity. }
    (* the rule is not after [a], so it is not [b], but has the same start string *)
    assert (Er : fst rule = fst b).
    { destruct Hm as (t & Et). assert (length t = 0).
      { apply (f_equal (@length N)) in Et. rewrite app_length in Et. lia. }
      destruct t; [|discriminate]. rewrite app_nil_r in Et. auto. }
    assert (Ma : matches (fst b) a) by (exists rest; auto).
    (* [a] lies at or behind the rule *)
    assert (P : exists l2, l = l' ++ l2 /\ (l2 = [] -> rule = a) /\ (forall y l3, l2 = y :: l3 -> rule = y)).
    { clear - E Hn Ma. revert l' E Hn. induction l as [|x l IH]; intros l' E Hn.
      - destruct l' as [|y l'].
        + exists []. cbn in E. injection E as -> _. repeat split; auto. discriminate.
        + cbn in E. injection E as <- _. exfalso. apply (Hn a); cbn; auto.
      - destruct l' as [|y l'].
        + exists (x :: l). cbn in E. injection E as -> _. repeat split; auto; [discriminate|].
          intros y l3 F. injection F as -> _. auto.
        + cbn in E. injection E as <- E. destruct (IH l' E) as (l2 & -> & H).
          { intros z Hz. apply Hn. cbn; auto. }
          exists l2. auto. }
    destruct P as (l2 & -> & P1 & P2).
    rewrite <- app_assoc in Hnd.
    assert (D : ~ In (fst b) (map fst (l2 ++ a :: m))).
    { replace (l' ++ l2 ++ a :: m ++ b :: n) with ((l' ++ (l2 ++ a :: m)) ++ b :: n) in Hnd
        by (rewrite <- !app_assoc; reflexivity).
      rewrite map_app in Hnd. cbn [map] in Hnd. apply NoDup_remove_2 in Hnd.
      intros F. apply Hnd. apply in_or_app; left. rewrite map_app. apply in_or_app; right. exact F. }
    apply D. rewrite <- Er. apply in_map. destruct l2 as [|y l3].
    + rewrite (P1 eq_refl). cbn; auto.
    + rewrite (P2 y l3 eq_refl). cbn; auto.
  - exfalso. apply (Hn b); [apply in_or_app; right; right; apply in_or_app; right; cbn; auto|].
    exists []. rewrite app_nil_r. reflexivity.
Qed.

(** A catalog whose general rule comes before the special one. *)
Definition rule_element (start prefix : string) : xml :=
  Xml (Some (clark oasis (u "rewriteURI"))) [(u "uriStartString", u start); (u "rewritePrefix", u prefix)] [] None [].
Definition catalog_element (kids : list xml) : xml := Xml (Some (clark oasis (u "catalog"))) [] [] None kids.
Definition general_first : xml :=
  catalog_element [rule_element "http://x.org/" "../x/"; rule_element "http://x.org/2024/" "../y/"].
Definition special_first : xml :=
  catalog_element [rule_element "http://x.org/2024/" "../y/"; rule_element "http://x.org/" "../x/"].

Theorem C37_refuted : exists rs, parse_catalog_xml (u "p/META-INF/catalog.xml") general_first [] [] = Ok (rs, []) /\
  ~ rewritten_by_longest rs (u "http://x.org/2024/a.xsd") (rewrite rs (u "http://x.org/2024/a.xsd")).
Proof.
  eexists. split; [vm_compute; reflexivity|].
  match goal with |- ~ rewritten_by_longest ?r _ _ => set (rs := r) end.
  intros [(rule & (Hin & _ & Hbest) & (rest & E1 & E2))|[Hn _]].
  - assert (L : length (u "http://x.org/2024/") <= length (fst rule)).
    { apply (Hbest (u "http://x.org/2024/", u "p/META-INF/../y/")).
      - right; left; reflexivity.
      - exists (u "a.xsd"). reflexivity. }
    destruct Hin as [<-|[<-|[]]].
    + vm_compute in L. lia.
    + assert (rest = u "a.xsd") as ->.
      { change (u "http://x.org/2024/a.xsd") with (u "http://x.org/2024/" ++ u "a.xsd") in E1.
        apply app_inv_head in E1. auto. }
      vm_compute in E2. discriminate.
  - apply (Hn (u "http://x.org/", u "p/META-INF/../x/")); [left; reflexivity|].
    exists (u "2024/a.xsd"). reflexivity.
Qed.

Example C37_example : exists rs, parse_catalog_xml (u "p/META-INF/catalog.xml") special_first [] [] = Ok (rs, []) /\
  longer_first rs /\ rewrite rs (u "http://x.org/2024/a.xsd") = u "p/META-INF/../y/a.xsd" /\
  rewrite rs (u "http://x.org/b.xsd") = u "p/META-INF/../x/b.xsd".
Proof.
  eexists. split; [vm_compute; reflexivity|]. split; [|split; vm_compute; reflexivity].
  intros l a m b n E (rest & F).
  destruct l as [|x1 [|x2 [|x3 l]]]; cbn [app] in E.
  - injection E as <- E. destruct m as [|y1 [|y2 m]]; cbn [app] in E; try discriminate.
    injection E as <- _. cbn [fst] in F. apply (f_equal (@length N)) in F. rewrite app_length in F.
    vm_compute in F. lia.
  - injection E as _ <- E. destruct m; discriminate.
  - injection E as _ _ E. discriminate.
  - injection E as _ _ E. discriminate.
Qed.

(** The rules of a catalog are its complete rewriteURI elements in document order, relative to the
    directory of the catalog; incomplete ones are reported. *)
Theorem C37_catalog path root : let dir := removelast (split_char (ch "/") path) in
  let kids := filter (has_tag (clark oasis (u "rewriteURI"))) (x_kids root) in
  NoDup (map fst (rules_of dir kids)) ->
  exists es, parse_catalog_xml path root [] [] = Ok (rules_of dir kids, es) /\
    map er_context es = (if has_tag (clark oasis (u "catalog")) root then [] else [Some root]) ++
                        map Some (filter incomplete kids) /\
    (forall e, In e es -> er_severity e = ERROR).
Proof.
  intros dir kids Hn. unfold parse_catalog_xml. fold dir. fold kids.
  assert (G : forall es0, exists es', catalog_rules dir kids [] [] es0 = Ok (rules_of dir kids, es0 ++ es') /\
    map er_context es' = map Some (filter incomplete kids) /\ (forall e, In e es' -> er_severity e = ERROR)).
  { intros es0. apply (catalog_rules_ok dir kids [] [] es0); [exact Hn|intros; reflexivity|intros s _ []]. }
  destruct (has_tag (clark oasis (u "catalog")) root); cbn [bind].
  - destruct (G []) as (es' & H1 & H2 & H3). exists es'. auto.
  - destruct (root_inserts [] root) as (e & Hc & Hs & ->). cbn [bind app].
    destruct (G [e]) as (es' & H1 & H2 & H3). exists (e :: es'). split; [exact H1|]. split.
    + cbn [map app]. rewrite Hc, H2. reflexivity.
    + intros x [<-|Hx]; auto.
Qed.

(** A repeated start string is meant to be reported as an error of the catalog; it makes opening
    the filing fail instead. *)
Theorem C37_duplicate_crashes path root : let dir := removelast (split_char (ch "/") path) in
  let kids := filter (has_tag (clark oasis (u "rewriteURI"))) (x_kids root) in
  ~ NoDup (map fst (rules_of dir kids)) -> parse_catalog_xml path root [] [] = Raise ValueError.
Proof.
  intros dir kids Hn. unfold parse_catalog_xml. fold dir. fold kids.
  destruct (has_tag (clark oasis (u "catalog")) root); cbn [bind].
  - apply catalog_rules_dup. auto.
  - destruct (root_inserts [] root) as (e & _ & _ & ->). cbn [bind]. apply catalog_rules_dup. auto.
Qed.

Example C37_duplicate_example :
  parse_catalog_xml (u "META-INF/catalog.xml")
    (catalog_element [rule_element "http://x/" "a/"; rule_element "http://x/" "b/"]) [] [] = Raise ValueError.
Proof. vm_compute. reflexivity. Qed.

(** * C55: the catalog among the entry points *)

(** The catalog used is a shortest of the paths ending in META-INF/catalog.xml; it is not loaded as
    an entry point, and all other paths are. *)
Theorem C55_catalog_choice paths p : get_catalog_filepath paths = Some p ->
  In p paths /\ ends_with (u "META-INF/catalog.xml") p = true /\
  forall q, In q paths -> ends_with (u "META-INF/catalog.xml") q = true -> length p <= length q.
Proof.
  unfold get_catalog_filepath. destruct (filter (ends_with catalog_filepath) paths) as [|q l] eqn:E; [discriminate|].
  intros [= Ep]. destruct (shortest_spec l q) as [H1 H2]. cbv zeta in *.
  match type of H1 with In ?b _ => assert (Eb : b = p) by exact Ep; rewrite Eb in H1, H2; clear Ep Eb end.
  assert (I : In p (filter (ends_with catalog_filepath) paths)) by (rewrite E; exact H1).
  apply filter_In in I as [A B]. split; [exact A|split; [exact B|]].
  intros x Hx He. apply H2.
  assert (I : In x (filter (ends_with catalog_filepath) paths)) by (apply filter_In; auto).
  rewrite E in I. exact I.
Qed.

Theorem C55_no_catalog paths : get_catalog_filepath paths = None <->
  forall q, In q paths -> ends_with (u "META-INF/catalog.xml") q = false.
Proof.
  unfold get_catalog_filepath. destruct (filter (ends_with catalog_filepath) paths) as [|q l] eqn:E.
  - split; [|auto]. intros _ q Hq. destruct (ends_with (u "META-INF/catalog.xml") q) eqn:Ee; [|reflexivity].
    assert (I : In q (filter (ends_with catalog_filepath) paths)) by (apply filter_In; auto).
    rewrite E in I. destruct I.
  - split; [discriminate|]. intros H.
    assert (I : In q (filter (ends_with catalog_filepath) paths)) by (rewrite E; cbn; auto).
    apply filter_In in I as [A B]. apply H in A. unfold catalog_filepath in B. congruence.
Qed.

Theorem C55_entry_points parse_file paths rest r es : parse_catalog parse_file paths = Ok (rest, r, es) ->
  (get_catalog_filepath paths = None /\ rest = paths /\ r = [] /\ es = []) \/
  (exists p a b root, get_catalog_filepath paths = Some p /\ paths = a ++ p :: b /\ rest = a ++ b /\
     parse_file p = Some root /\ parse_catalog_xml p root [] [] = Ok (r, es)).
Proof.
  unfold parse_catalog. destruct (get_catalog_filepath paths) as [p|] eqn:E.
  - assert (H := C55_catalog_choice _ _ E). destruct H as (Hin & Hend & _).
    destruct p as [|c p]; [vm_compute in Hend; discriminate|].
    destruct (parse_file (c :: p)) as [root|] eqn:Ep; cbn [or_error bind]; [|discriminate].
    destruct (parse_catalog_xml (c :: p) root [] []) as [[r' es']|e] eqn:Ex; cbn [bind fst snd]; [|discriminate].
    intros [= <- <- <-]. right. destruct (remove_first_spec _ _ Hin) as (a & b & Ha & _ & Hr).
    exists (c :: p), a, b, root. rewrite Hr. auto.
  - intros [= <- <- <-]. left. auto.
Qed.

Example C55_example : get_catalog_filepath
  [u "pkg/sub/META-INF/catalog.xml"; u "pkg/r.xhtml"; u "pkg/META-INF/catalog.xml"] = Some (u "pkg/META-INF/catalog.xml").
Proof. vm_compute. reflexivity. Qed.

Print Assumptions C35_exact_partial.
Print Assumptions C35_succeeds_iff.
Print Assumptions C35_terminates_partial.
Print Assumptions C35_terminates_refuted.
Print Assumptions C35_content_refuted.
Print Assumptions C36_same_base_partial.
Print Assumptions C36_local.
Print Assumptions C36_refuted.
Print Assumptions C37_longest_partial.
Print Assumptions C37_longest_only_if.
Print Assumptions C37_refuted.
Print Assumptions C37_catalog.
Print Assumptions C37_duplicate_crashes.
Print Assumptions C54_exact_partial.
Print Assumptions C54_fails_iff.
Print Assumptions C54_refuted.
Print Assumptions C55_catalog_choice.
Print Assumptions C55_entry_points.
