(** Theorems about opening paths: C68-C71. *)
From Verif Require Import Base Regex QNameModel ErrBase ErrTable ErrModel CtxModel DtsModel DtsSpec DtsProofs DtsRefs
  OpenModel OpenSpec OpenProofs.
Local Opaque u.

(** * C68: the files of a folder *)

Lemma ends_any_In l s : ends_any l s = true <-> exists e, In e l /\ ends_with e s = true.
Proof. unfold ends_any. rewrite existsb_exists. reflexivity. Qed.

Lemma suffix_supported q : ends_any folder_suffixes q = true <-> supported q \/ ends_with (u "html") q = true.
Proof.
  rewrite ends_any_In. unfold supported, folder_suffixes, extensions. split.
  - intros (e & He & H). destruct He as [<-|[<-|[<-|[<-|[<-|[]]]]]]; auto; left.
    + exists (u "xml"). split; [cbn; auto|]. apply ends_extension. exact H.
    + exists (u "xhtml"). split; [cbn; auto|]. apply ends_extension. exact H.
    + exists (u "htm"). split; [cbn; auto|]. apply ends_extension. exact H.
    + exists (u "xsd"). split; [cbn; auto 7|]. apply ends_extension. exact H.
  - intros [(e & He & H)|H]; [|exists (u "html"); split; [cbn; auto 7|exact H]].
    apply ends_extension in H. destruct He as [<-|[<-|[<-|[<-|[<-|[]]]]]].
    + exists (u ".xml"). split; [cbn; auto|exact H].
    + exists (u ".xhtml"). split; [cbn; auto|exact H].
    + exists (u ".htm"). split; [cbn; auto|exact H].
    + exists (u "html"). split; [cbn; auto 7|]. apply ends_with_iff in H as (a & ->). apply ends_with_iff.
      exists (a ++ [ch "."]). rewrite <- app_assoc. reflexivity.
    + exists (u ".xsd"). split; [cbn; auto 7|exact H].
Qed.

(** The files loaded for a folder are the files below it, at any depth, with a supported extension;
    each of them once.  One more kind of file is taken: names that only end in "html". *)
Theorem C68_files_partial fs fuel path l : file_loader_for fs path = false -> fs_isdir fs path = true ->
  load_path fs fuel path = Ok l ->
  (forall q, below fs path q -> fs_isfile fs q = true -> supported q -> In q l) /\
  (forall q, In q l -> below fs path q /\ fs_isfile fs q = true /\ (supported q \/ exists a, q = a ++ u "html")) /\
  (plain_names fs -> NoDup l).
Proof.
  intros Hf Hd H. unfold load_path in H. rewrite Hf, Hd in H. split; [|split].
  - intros q Hb Hi Hs. apply (folder_files _ _ _ _ H). repeat split; auto. apply suffix_supported. auto.
  - intros q Hq. apply (folder_files _ _ _ _ H) in Hq as (Hb & Hi & Hs). repeat split; auto.
    apply suffix_supported in Hs as [Hs|Hs]; [auto|right; apply ends_with_iff; exact Hs].
  - intros Hp. eapply folder_once; eauto.
Qed.

(** Loading a folder ends exactly if the folder has finite depth. *)
Theorem C68_finite_depth fs path : file_loader_for fs path = false -> fs_isdir fs path = true ->
  ((exists fuel l, load_path fs fuel path = Ok l) <-> exists n, forall d, ~ inside fs path n d) /\
  (forall fuel e, load_path fs fuel path = Raise e -> e = OutOfFuel).
Proof.
  intros Hf Hd. unfold load_path. rewrite Hf, Hd. split; [split|].
  - intros (n & l & H). destruct (folder_ends fs n path) as [[_ Hn]|[E _]]; [eauto|congruence].
  - intros (n & Hn). destruct (folder_ends fs n path) as [[(l & Hl) _]|[_ (d & Hi)]]; [eauto|destruct (Hn d Hi)].
  - intros n e H. destruct (folder_ends fs n path) as [[(l & Hl) _]|[E _]]; congruence.
Qed.

(** A folder on disk: folder "f" with "a.xml", "notes.txt" and a subfolder "g" with "b.xsd", "c.html". *)
Definition tree_fs : fsys :=
  let dirs := [(u "f", [u "a.xml"; u "notes.txt"; u "g"]); (u "f/g", [u "b.xsd"; u "c.html"])] in
  Fsys (fun p => existsb (str_eqb p) [u "f/a.xml"; u "f/notes.txt"; u "f/g/b.xsd"; u "f/g/c.html"])
    (fun p => dict_mem str_eqb dirs p)
    (fun p => match dict_get str_eqb dirs p with Some l => l | None => [] end) (fun _ => None).

Example C68_example : file_loader_for tree_fs (u "f") = false /\ fs_isdir tree_fs (u "f") = true /\
  load_path tree_fs 2 (u "f") = Ok [u "f/a.xml"; u "f/g/b.xsd"; u "f/g/c.html"] /\
  below tree_fs (u "f") (u "f/g/b.xsd").
Proof.
  do 3 (split; [vm_compute; reflexivity|]). exists 1, (u "f/g"), (u "b.xsd"). split; [|split; vm_compute; auto].
  apply (inside_sub tree_fs (u "f") 0 (u "f") (u "g")); [constructor|vm_compute; auto|vm_compute; reflexivity].
Qed.
Example C68_example_names : plain_names tree_fs.
Proof.
  intros d. cbn [fs_list tree_fs]. destruct (dict_get str_eqb _ d) as [l|] eqn:E; [|split; [constructor|intros _ []]].
  cbn [dict_get] in E. destruct (str_eqb _ _) in E; [|destruct (str_eqb _ _) in E; [|discriminate E]]; injection E as <-.
  - split; [|intros n [<-|[<-|[<-|[]]]] H; vm_compute in H; intuition discriminate].
    repeat constructor; intros H; vm_compute in H; intuition discriminate.
  - split; [|intros n [<-|[<-|[]]] H; vm_compute in H; intuition discriminate].
    repeat constructor; intros H; vm_compute in H; intuition discriminate.
Qed.

(** The files given to the parser, seen from the files of the path. *)
Lemma catalog_files parse_file files rest r es : parse_catalog parse_file files = Ok (rest, r, es) ->
  files = rest /\ r = [] \/
  exists a p b, files = a ++ p :: b /\ rest = a ++ b /\ ends_with (u ".xml") p = true /\ ends_with catalog_filepath p = true.
Proof.
  unfold parse_catalog, get_catalog_filepath. destruct (filter (ends_with catalog_filepath) files) as [|p l] eqn:E.
  { intros [= <- <- _]. auto. }
  match goal with |- context [fold_left ?f l p] => set (best := fold_left f l p) end.
  destruct (shortest_spec l p) as [Hin _].
  assert (Hin' : In best (filter (ends_with catalog_filepath) files)) by (rewrite E; exact Hin). clear Hin.
  apply filter_In in Hin' as [Hin He]. clearbody best. destruct best as [|c best]; [intros [= <- <- _]; auto|].
  intros H. apply bind_ok in H as (root & _ & H). apply bind_ok in H as (re & _ & [= <- _ _]). right.
  destruct (remove_first_spec _ _ Hin) as (a & b & E1 & _ & E2). exists a, (c :: best), b.
  repeat split; auto. apply ends_with_iff in He as (x & ->). apply ends_with_iff.
  exists (x ++ u "META-INF/catalog"). rewrite <- app_assoc. reflexivity.
Qed.

Definition xml_file (f : str) : Prop := has_extension (u "xml") f \/ has_extension (u "xsd") f.

Lemma is_xml_file_spec f : is_xml_file f = true <-> xml_file f.
Proof.
  unfold is_xml_file, xml_file. rewrite orb_true_iff. change (u ".xml") with (ch "." :: u "xml").
  change (u ".xsd") with (ch "." :: u "xsd"). rewrite !ends_extension. reflexivity.
Qed.
Lemma is_known_file_spec f : is_known_file f = true <-> supported f.
Proof.
  unfold is_known_file, supported, extensions. rewrite !orb_true_iff. change (u ".xml") with (ch "." :: u "xml").
  change (u ".xsd") with (ch "." :: u "xsd"). change (u ".htm") with (ch "." :: u "htm").
  change (u ".html") with (ch "." :: u "html"). change (u ".xhtml") with (ch "." :: u "xhtml").
  rewrite !ends_extension. split.
  - intros [[[[H|H]|H]|H]|H]; eexists; split; try exact H; cbn [In]; auto 7.
  - intros (e & [<-|[<-|[<-|[<-|[<-|[]]]]]] & H); auto.
Qed.

Lemma xml_supported f : xml_file f -> supported f.
Proof. intros [H|H]; eexists; (split; [|exact H]); cbn [extensions In]; auto 7. Qed.

(** * C69: the kind of a filing *)

(** A filing that is opened is read as an XML filing exactly if all its files are .xml or .xsd, as
    an inline filing if there is also a .htm, .html or .xhtml file; no other file is accepted. *)
Theorem C69_kind {tree} (w : world tree) parse_file fuel cached files k ctx :
  create_parser w parse_file fuel cached files = Ok (k, ctx) ->
  files <> [] /\ (forall f, In f files -> supported f) /\
  (k = XmlFiling <-> forall f, In f files -> xml_file f) /\
  (k = XhtmlFiling <-> exists f, In f files /\ ~ xml_file f).
Proof.
  unfold create_parser, open_context. destruct files as [|f0 files0]; [discriminate|]. set (files := f0 :: files0).
  intros H. apply bind_ok in H as ((rest & ctx') & H1 & H2).
  apply bind_ok in H1 as (((paths & r) & es) & Hc & H1). apply bind_ok in H1 as (s & _ & [= -> _]).
  split; [discriminate|].
  assert (A : forall P : str -> Prop, (forall f, ends_with (u ".xml") f = true -> P f) ->
     (forall f, In f rest -> P f) -> forall f, In f files -> P f).
  { intros P HP Hr f Hf. destruct (catalog_files _ _ _ _ _ Hc) as [[E _]|(a & p & b & E & Er & Hp & _)].
    - apply Hr. rewrite <- E. exact Hf.
    - rewrite E in Hf. rewrite Er in Hr. apply in_app_or in Hf as [Hf|[<-|Hf]]; auto; apply Hr, in_or_app; auto. }
  assert (B : forall f, In f rest -> In f files).
  { intros f Hf. destruct (catalog_files _ _ _ _ _ Hc) as [[E _]|(a & p & b & E & Er & _)].
    - rewrite E. exact Hf.
    - rewrite E. rewrite Er in Hf. apply in_app_or in Hf as [Hf|Hf]; apply in_or_app; cbn; auto. }
  assert (X : forall f, ends_with (u ".xml") f = true -> xml_file f).
  { intros f Hf. left. apply ends_extension. exact Hf. }
  destruct (forallb is_xml_file rest) eqn:E1.
  - injection H2 as <- <-. rewrite forallb_forall in E1.
    assert (AX : forall f, In f files -> xml_file f).
    { apply A; [exact X|]. intros f Hf. apply is_xml_file_spec. auto. }
    split; [intros f Hf; apply xml_supported; auto|]. split; [split; auto|].
    split; [discriminate|]. intros (f & Hf & Hn). destruct (Hn (AX f Hf)).
  - destruct (forallb is_known_file rest) eqn:E2; [|discriminate]. injection H2 as <- <-. rewrite forallb_forall in E2.
    split; [apply A; [intros f Hf; apply xml_supported; auto|intros f Hf; apply is_known_file_spec; auto]|].
    assert (N : exists f, In f files /\ ~ xml_file f).
    { clear -E1 B. induction rest as [|f rest IH]; [discriminate|]. cbn [forallb] in E1.
      destruct (is_xml_file f) eqn:Ef; [apply IH; [exact E1|intros g Hg; apply B; cbn; auto]|].
      exists f. split; [apply B; cbn; auto|]. rewrite <- is_xml_file_spec. congruence. }
    split; [|split; auto]. split; [discriminate|]. intros AX. destruct N as (f & Hf & Hn). destruct (Hn (AX f Hf)).
Qed.

(** A folder with a file whose name only ends in "html" cannot be opened, whatever else it has. *)
Theorem C68_html_refuted {tree} (w : world tree) fs parse_file fuel cached path q :
  file_loader_for fs path = false -> fs_isdir fs path = true ->
  below fs path q -> fs_isfile fs q = true -> ends_with (u "html") q = true -> ~ supported q ->
  forall filing, open_path fs w parse_file fuel cached path <> Ok filing.
Proof.
  intros Hf Hd Hb Hi He Hs [k ctx] H. unfold open_path in H. apply bind_ok in H as (files & Hl & H).
  apply C69_kind in H as (_ & H & _). apply Hs, H. unfold load_path in Hl. rewrite Hf, Hd in Hl.
  apply (folder_files _ _ _ _ Hl). repeat split; auto. apply suffix_supported. auto.
Qed.
Definition odd_fs : fsys :=
  Fsys (fun p => existsb (str_eqb p) [u "f/a.xml"; u "f/readme_html"]) (fun p => str_eqb p (u "f"))
    (fun p => if str_eqb p (u "f") then [u "a.xml"; u "readme_html"] else []) (fun _ => None).
Example C68_html_example : file_loader_for odd_fs (u "f") = false /\ fs_isdir odd_fs (u "f") = true /\
  below odd_fs (u "f") (u "f/readme_html") /\ fs_isfile odd_fs (u "f/readme_html") = true /\
  ends_with (u "html") (u "f/readme_html") = true /\ ~ supported (u "f/readme_html").
Proof.
  do 2 (split; [vm_compute; reflexivity|]). split.
  { exists 0, (u "f"), (u "readme_html"). split; [constructor|]. split; vm_compute; auto. }
  do 2 (split; [vm_compute; reflexivity|]). rewrite <- is_known_file_spec. vm_compute. discriminate.
Qed.

(** A link inside a folder to the folder itself: loading does not end. *)
Definition loop_fs : fsys := Fsys (fun _ => false) (fun _ => true) (fun _ => [u "self"]) (fun _ => None).
Theorem C68_cycle_refuted : forall fuel, load_path loop_fs fuel (u "f") = Raise OutOfFuel.
Proof.
  intros fuel. unfold load_path. replace (file_loader_for loop_fs (u "f")) with false by (vm_compute; reflexivity).
  cbn [fs_isdir loop_fs]. destruct (folder_ends loop_fs fuel (u "f")) as [[_ Hn]|[E _]]; [|exact E]. exfalso.
  assert (forall n, exists d, inside loop_fs (u "f") n d) as G.
  { induction n as [|n (d & Hd)]; [exists (u "f"); constructor|]. exists (entry d (u "self")).
    apply inside_sub; [exact Hd|left; reflexivity|reflexivity]. }
  destruct (G fuel) as (d & Hd). exact (Hn d Hd).
Qed.

(** Which paths are accepted at all. *)
Theorem C69_accepted fs fuel path :
  (exists l, load_path fs fuel path = Ok l) \/ load_path fs fuel path = Raise OutOfFuel <->
  (has_extension (u "xml") path \/ has_extension (u "xhtml") path) /\
     (fs_isfile fs path = true \/ exists r, path = u "http://" ++ r \/ path = u "https://" ++ r) \/
  fs_isdir fs path = true \/
  has_extension (u "zip") path /\ exists names, fs_zip fs path = Some names.
Proof.
  unfold load_path. destruct (file_loader_for fs path) eqn:E.
  { split; [intros _|intros _; left; eauto]. left. unfold file_loader_for in E.
    apply andb_true_iff in E as [E1 E2]. split.
    - apply ends_any_In in E1 as (e & [<-|[<-|[]]] & H); [left|right]; apply ends_extension; exact H.
    - rewrite !orb_true_iff in E2. destruct E2 as [E2|[E2|E2]]; [auto| |];
        apply starts_with_iff in E2 as (r & ->); right; exists r; auto. }
  assert (F : ~ ((has_extension (u "xml") path \/ has_extension (u "xhtml") path) /\
     (fs_isfile fs path = true \/ exists r, path = u "http://" ++ r \/ path = u "https://" ++ r))).
  { intros [H1 H2]. assert (file_loader_for fs path = true); [|congruence]. unfold file_loader_for.
    apply andb_true_iff. split.
    - apply ends_any_In. destruct H1 as [H|H]; apply ends_extension in H; eexists; (split; [|exact H]); cbn; auto.
    - rewrite !orb_true_iff. destruct H2 as [H|(r & [H|H])]; [auto|right; left|right; right]; apply starts_with_iff; eauto. }
  destruct (fs_isdir fs path) eqn:D.
  { split; [auto|]. intros _. destruct (folder_ends fs fuel path) as [[H _]|[H _]]; auto. }
  destruct (zip_loader_for path) eqn:Z.
  - unfold load_zip. destruct (fs_zip fs path) as [names|] eqn:En; cbn [or_error bind].
    + split; [|left; eauto]. intros _. right. right. split; [apply ends_extension; exact Z|eauto].
    + split; [intros [(l & H)|H]; discriminate|]. intros [H|[H|(_ & names & H)]]; [tauto|discriminate|discriminate].
  - split; [intros [(l & H)|H]; discriminate|]. intros [H|[H|(H & _)]]; [tauto|discriminate|].
    apply ends_extension in H. assert (T : true = false) by exact (eq_trans (eq_sym H) Z). discriminate T.
Qed.

(** Single files with the other extensions a folder may have are not accepted. *)
Theorem C69_single_file_refuted fs fuel path e : In e [u "htm"; u "html"; u "xsd"] -> has_extension e path ->
  fs_isdir fs path = false -> load_path fs fuel path = Raise ValueError.
Proof.
  intros He (a & ->) Hd. unfold load_path. rewrite Hd.
  assert (E : forall p, In p [u ".xml"; u ".xhtml"; u ".zip"] -> ends_with p (a ++ ch "." :: e) = false).
  { intros p Hp. unfold ends_with. rewrite rev_app_distr. generalize (rev a). intros b.
    destruct He as [<-|[<-|[<-|[]]]]; destruct Hp as [<-|[<-|[<-|[]]]]; vm_compute; reflexivity. }
  unfold file_loader_for, ends_any. cbn [existsb]. rewrite !E by (cbn; auto). cbn [orb andb].
  unfold zip_loader_for. rewrite E by (cbn; auto). reflexivity.
Qed.
Example C69_single_file_example : has_extension (u "htm") (u "f/g.htm") /\
  load_path (Fsys (fun p => str_eqb p (u "f/g.htm")) (fun p => str_eqb p (u "f"))
     (fun p => if str_eqb p (u "f") then [u "g.htm"] else []) (fun _ => None)) 9 (u "f") = Ok [u "f/g.htm"].
Proof. split; [exists (u "f/g"); vm_compute; reflexivity|vm_compute; reflexivity]. Qed.

(** A path without any file to read is an error. *)
Theorem C69_nothing {tree} (w : world tree) fs parse_file fuel cached path :
  load_path fs fuel path = Ok [] -> open_path fs w parse_file fuel cached path = Raise ValueError.
Proof. intros H. unfold open_path. rewrite H. reflexivity. Qed.
Example C69_nothing_example : load_path (Fsys (fun _ => true) (fun p => str_eqb p (u "f"))
  (fun p => if str_eqb p (u "f") then [u "notes.txt"] else []) (fun _ => None)) 1 (u "f") = Ok [].
Proof. vm_compute. reflexivity. Qed.

(** An inline filing: a folder with a report and its schema. *)
Definition quiet_world (disk : str -> option str) : world str :=
  World (fun _ ref => ref) (fun p => p) (fun _ => None) disk (fun _ text => Some text) (fun l => l).
Example C69_kind_example : create_parser (quiet_world (fun _ => Some (u "<x/>"))) (fun _ => None) 9 []
    [u "f/r.xhtml"; u "f/s.xsd"] =
  Ok (XhtmlFiling, ([], [], Cache [(u "r.xhtml", u "<x/>"); (u "s.xsd", u "<x/>")]
        [(u "f/r.xhtml", u "<x/>"); (u "f/s.xsd", u "<x/>")])).
Proof. vm_compute. reflexivity. Qed.

(** * C70: archives *)

Lemma fetch_nothing {tree} (w : world tree) s remote uri : (forall p, w_local w p = None) -> (forall p, w_remote w p = None) ->
  files s = [] -> fetch w s remote uri = Raise OSError.
Proof.
  intros Hl Hr Hs. unfold fetch, has_file. rewrite Hs, Hl, Hr. destruct remote; reflexivity.
Qed.

(** The members of an archive are not read: without other files on disk, in the cache or on the
    network no archive with a member to read can be opened. *)
Theorem C70_archive_refuted {tree} (w : world tree) fs parse_file fuel path names q :
  has_extension (u "zip") path -> fs_isdir fs path = false -> fs_zip fs path = Some names ->
  In q names -> (has_extension (u "xml") q \/ has_extension (u "xhtml") q) -> ends_with catalog_filepath q = false ->
  (forall p, w_local w p = None) -> (forall p, w_remote w p = None) ->
  forall filing, open_path fs w parse_file fuel [] path <> Ok filing.
Proof.
  intros Hz Hd Hn Hq He Hc Hl Hr filing H. unfold open_path in H. apply bind_ok in H as (files & Hf & H).
  assert (Hq' : In q files).
  { unfold load_path in Hf. destruct Hz as (a & ->).
    assert (E : file_loader_for fs (a ++ ch "." :: u "zip") = false).
    { unfold file_loader_for, ends_any, ends_with. rewrite rev_app_distr. generalize (rev a). intros b. reflexivity. }
    rewrite E, Hd in Hf. replace (zip_loader_for (a ++ ch "." :: u "zip")) with true in Hf
      by (symmetry; apply ends_with_iff; exists a; reflexivity).
    unfold load_zip in Hf. rewrite Hn in Hf. cbn [or_error bind] in Hf. injection Hf as <-. apply filter_In.
    split; [exact Hq|]. apply ends_any_In. destruct He as [He|He]; apply ends_extension in He; eexists; (split; [|exact He]); cbn; auto. }
  unfold create_parser in H. destruct files as [|f0 files0]; [discriminate|]. set (files := f0 :: files0) in *. clearbody files.
  apply bind_ok in H as ((rest & ctx) & H & _). unfold open_context in H.
  apply bind_ok in H as (((paths & r) & es) & Hp & H). apply bind_ok in H as (s & Hs & [= -> _]).
  assert (Hr' : In q rest).
  { destruct (catalog_files _ _ _ _ _ Hp) as [[E _]|(a & p & b & E & -> & _ & Ep)]; [rewrite <- E; exact Hq'|].
    rewrite E in Hq'. apply in_app_or in Hq' as [Hx|[Hx|Hx]]; [apply in_or_app; auto| |apply in_or_app; auto].
    congruence. }
  destruct rest as [|f rest]; [destruct Hr'|]. unfold load_all in Hs. cbn [for_each] in Hs.
  apply bind_ok in Hs as (s1 & Hs & _). destruct fuel as [|fuel]; [discriminate|]. cbn [add_etree_recursive] in Hs.
  unfold has_etree, dict_mem in Hs. cbn [trees dict_get] in Hs. apply bind_ok in Hs as (k & _ & Hs).
  rewrite fetch_nothing in Hs by auto. discriminate.
Qed.

(** What is read instead is a file of the same name relative to the current directory. *)
Definition archive_fs : fsys := Fsys (fun _ => false) (fun _ => false) (fun _ => [])
  (fun p => if str_eqb p (u "f/report.zip") then Some [u "report.xsd"; u "a.xml"] else None).
Example C70_example : has_extension (u "zip") (u "f/report.zip") /\ fs_zip archive_fs (u "f/report.zip") = Some [u "report.xsd"; u "a.xml"] /\
  open_path archive_fs (quiet_world (fun p => if str_eqb p (u "a.xml") then Some (u "<other/>") else None)) (fun _ => None) 9 []
    (u "f/report.zip") = Ok (XmlFiling, ([], [], Cache [(u "a.xml", u "<other/>")] [(u "a.xml", u "<other/>")])) /\
  open_path archive_fs (quiet_world (fun _ => None)) (fun _ => None) 9 [] (u "f/report.zip") = Raise OSError.
Proof. split; [exists (u "f/report"); vm_compute; reflexivity|]. vm_compute. auto. Qed.

(** Schemas and .htm and .html reports in archives are not even looked at. *)
Theorem C70_other_members_refuted {tree} (w : world tree) fs parse_file fuel cached path names :
  has_extension (u "zip") path -> fs_isdir fs path = false -> fs_zip fs path = Some names ->
  (forall q, In q names -> ~ has_extension (u "xml") q /\ ~ has_extension (u "xhtml") q) ->
  open_path fs w parse_file fuel cached path = Raise ValueError.
Proof.
  intros (a & ->) Hd Hn Hm. apply C69_nothing. unfold load_path.
  assert (E : file_loader_for fs (a ++ ch "." :: u "zip") = false).
  { unfold file_loader_for, ends_any, ends_with. rewrite rev_app_distr. generalize (rev a). intros b. reflexivity. }
  rewrite E, Hd. replace (zip_loader_for (a ++ ch "." :: u "zip")) with true
    by (symmetry; apply ends_with_iff; exists a; reflexivity).
  unfold load_zip. rewrite Hn. cbn [or_error bind]. f_equal. clear -Hm. induction names as [|q names IH]; [reflexivity|].
  cbn [filter]. destruct (ends_any [u ".xml"; u ".xhtml"] q) eqn:Eq.
  - exfalso. destruct (Hm q (or_introl eq_refl)) as [N1 N2].
    apply ends_any_In in Eq as (e & [<-|[<-|[]]] & H); [apply N1|apply N2]; apply ends_extension; exact H.
  - apply IH. intros x Hx. apply Hm. right. exact Hx.
Qed.

(** * C71: files kept from earlier sessions *)

Lemma absolute_local urljoin path : is_http path = false -> absolute urljoin path (u ".") = path.
Proof.
  intros H. unfold absolute. rewrite H. replace (is_http (u ".")) with false by (vm_compute; reflexivity). cbn [orb negb].
  replace (mem_char backslash (u ".")) with false by (vm_compute; reflexivity).
  replace (removelast (split_char (ch "/") (u "."))) with (@nil str) by (vm_compute; reflexivity). cbn [app].
  apply join_split.
Qed.

Lemma open_file {tree} fs (w : world tree) parse_file fuel cached path : file_loader_for fs path = true ->
  ends_with catalog_filepath path = false -> is_http path = false ->
  open_path fs w parse_file (S fuel) cached path =
  do! p <- get_parser path;
  do! x <- fetch w (Cache cached []) false path;
  do! t <- or_error (w_parse w p (fst x));
  let s := add_etree (snd x) path t in
  do! content <- get_file s path;
  do! refs <- extract_references content;
  do! s <- for_each (fun x => add_etree_recursive w [] fuel x path) (w_order w refs) s;
  Ok (if is_xml_file path then XmlFiling else XhtmlFiling, ([], [], s)).
Proof.
  intros Hf Hc Hh. unfold open_path, load_path. rewrite Hf. cbn [bind]. unfold create_parser, open_context, parse_catalog, get_catalog_filepath.
  cbn [filter]. rewrite Hc. cbn [bind]. unfold load_all. cbn [for_each add_etree_recursive].
  assert (R : resolve w [] path (u ".") = path) by (unfold resolve; rewrite absolute_local by exact Hh; reflexivity).
  rewrite R, Hh. replace (is_http (u ".")) with false by (vm_compute; reflexivity). cbn [orb].
  unfold has_etree at 1, dict_mem. cbn [trees dict_get].
  destruct (get_parser path) as [p|e]; [|reflexivity]. cbn [bind].
  destruct (fetch w (Cache cached []) false path) as [x|e]; [|reflexivity]. cbn [bind].
  destruct (or_error (w_parse w p (fst x))) as [t|e]; [|reflexivity]. cbn [bind].
  destruct (get_file _ path) as [c|e]; [|reflexivity]. cbn [bind].
  destruct (extract_references c) as [refs|e]; [|reflexivity]. cbn [bind].
  destruct (for_each _ _ _) as [s|e]; [|reflexivity]. cbn [bind forallb]. rewrite !andb_true_r.
  destruct (is_xml_file path) eqn:Ex; [reflexivity|].
  replace (is_known_file path) with true; [reflexivity|]. symmetry.
  unfold file_loader_for in Hf. apply andb_true_iff in Hf as [Hf _]. apply ends_any_In in Hf as (e & [<-|[<-|[]]] & He);
    unfold is_known_file; rewrite He; rewrite ?orb_true_r; reflexivity.
Qed.

(** A local file without references: what is read is its text on disk, if the cache has no file of
    this name; otherwise it is the text in the cache, whatever is on disk now. *)
Theorem C71_text_read {tree} fs (w : world tree) parse_file fuel cached path text p t :
  file_loader_for fs path = true -> ends_with catalog_filepath path = false -> is_http path = false ->
  w_path w path = path -> (forall l, Permutation.Permutation (w_order w l) l) ->
  get_parser path = Ok p ->
  match dict_get str_eqb cached (uri_to_filename path) with
  | Some kept => text = kept
  | None => w_local w path = Some text
  end ->
  w_parse w p text = Some t -> extract_references text = Ok [] ->
  exists k cached', open_path fs w parse_file (S fuel) cached path =
    Ok (k, ([], [], Cache cached' [(normalize_uri path, t)])).
Proof.
  intros Hf Hc Hh Hp Ho Hg Ht Hw He.
  assert (O : w_order w [] = []) by (apply Permutation.Permutation_nil, Permutation.Permutation_sym, Ho).
  rewrite open_file by assumption. rewrite Hg. cbn [bind]. unfold fetch, has_file, dict_mem, get_file. cbn [files].
  destruct (dict_get str_eqb cached (uri_to_filename path)) as [kept|] eqn:Ek.
  - subst kept. cbn [or_error bind fst snd add_etree files]. rewrite Hw. cbn [or_error bind]. rewrite Ek. cbn [or_error bind].
    rewrite He. cbn [bind]. rewrite O. cbn [for_each bind]. eexists _, _. reflexivity.
  - rewrite Hp, Ht. cbn [or_error bind add_file files]. rewrite (dict_get_set_same _ str_eqb_spec). cbn [or_error bind fst snd add_etree files].
    rewrite Hw. cbn [or_error bind]. unfold add_file at 1. cbn [files].
    rewrite (dict_get_set_same _ str_eqb_spec). cbn [or_error bind].
    rewrite He. cbn [bind]. rewrite O. cbn [for_each bind]. eexists _, _. reflexivity.
Qed.

(** Opening a file again after it was changed gives what it was, and another file of that name
    in another folder is taken for it: the cache of the first session is still there. *)
Theorem C71_changed_refuted :
  let fs := Fsys (fun _ => true) (fun _ => false) (fun _ => []) (fun _ => None) in
  let before := quiet_world (fun p => if str_eqb p (u "2023/r.xml") then Some (u "<old/>") else None) in
  let after := quiet_world (fun p => if str_eqb p (u "2023/r.xml") then Some (u "<new/>")
                                     else if str_eqb p (u "2024/r.xml") then Some (u "<next/>") else None) in
  exists cached, open_path fs before (fun _ => None) 9 [] (u "2023/r.xml") =
    Ok (XmlFiling, ([], [], Cache cached [(u "2023/r.xml", u "<old/>")])) /\
  open_path fs after (fun _ => None) 9 cached (u "2023/r.xml") =
    Ok (XmlFiling, ([], [], Cache cached [(u "2023/r.xml", u "<old/>")])) /\
  open_path fs after (fun _ => None) 9 cached (u "2024/r.xml") =
    Ok (XmlFiling, ([], [], Cache cached [(u "2024/r.xml", u "<old/>")])).
Proof. intros fs before after. exists [(u "r.xml", u "<old/>")]. vm_compute. auto. Qed.

Example C71_example : let w := quiet_world (fun p => if str_eqb p (u "d/r.xml") then Some (u "<r/>") else None) in
  file_loader_for (Fsys (fun _ => true) (fun _ => false) (fun _ => []) (fun _ => None)) (u "d/r.xml") = true /\
  ends_with catalog_filepath (u "d/r.xml") = false /\ is_http (u "d/r.xml") = false /\ w_path w (u "d/r.xml") = u "d/r.xml" /\
  get_parser (u "d/r.xml") = Ok XmlParser /\ extract_references (u "<r/>") = Ok [] /\
  dict_get str_eqb [(u "other.xml", u "x")] (uri_to_filename (u "d/r.xml")) = None.
Proof. vm_compute. auto 10. Qed.

Print Assumptions C68_files_partial.
Print Assumptions C68_finite_depth.
Print Assumptions C69_kind.
Print Assumptions C68_html_refuted.
Print Assumptions C68_cycle_refuted.
Print Assumptions C69_accepted.
Print Assumptions C69_single_file_refuted.
Print Assumptions C69_nothing.
Print Assumptions C70_archive_refuted.
Print Assumptions C70_other_members_refuted.
Print Assumptions C71_text_read.
Print Assumptions C71_changed_refuted.
