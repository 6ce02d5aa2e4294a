(** C50: the latest filing asked for is opened. C61: age of the metadata. *)
From Verif Require Import Base PyNum NumSpec NumProofs DtsModel DtsProofs EdgarModel EdgarSpec EdgarProofs.
Local Open Scope nat_scope.

Lemma load_works {F} (w : world F) m : works_with w m -> exists w', load_metadata w = (Ok m, w').
Proof.
  unfold works_with, load_metadata, download. destruct (w_cache w) as [[age c]|].
  - intros [[L ->]|[L ->]].
    + assert ((1 <? age / 86400)%Z = false) as ->; [|eauto].
      apply Z.ltb_ge. assert (age / 86400 < 2)%Z by (apply Z.div_lt_upper_bound; lia). lia.
    + assert ((1 <? age / 86400)%Z = true) as ->; [|eauto].
      apply Z.ltb_lt. assert (2 <= age / 86400)%Z by (apply Z.div_le_lower_bound; lia). lia.
  - intros ->. eauto.
Qed.

Lemma open_accepted {F} (w : world F) cik type date m : accepted w cik type date -> works_with w m ->
  exists w', w_ping w' = w_ping w /\ w_open w' = w_open w /\
    open_edgar w cik type date = (open_metadata w' m cik type date, w').
Proof.
  intros ((Hd & Hl) & Ht & Hs) Hw. destruct (load_works w m Hw) as (w' & E).
  exists w'. destruct (load_pings _ _ _ E) as [P1 P2]. split; [exact P1|]. split; [exact P2|].
  unfold open_edgar.
  assert (match date with Some d => negb (w_strptime w d) | None => false end = false) as ->
    by (destruct date; [rewrite Hs|]; reflexivity).
  assert (Nat.ltb 10 (length cik) = false) as -> by (apply Nat.ltb_ge; exact Hl).
  assert (existsb (str_eqb type) supported = true) as ->.
  { apply existsb_exists. exists type. split; [|apply str_eqb_refl].
    destruct Ht as [->|[->| ->]]; vm_compute; auto. }
  cbn [negb]. rewrite E. reflexivity.
Qed.

Lemma opens_uri {F} (w : world F) cik type date rows name x :
  company_number cik -> all_dated rows type date -> latest rows type date x ->
  open_metadata w (Metadata (table rows) (Some name)) cik type date =
    (do! uri <- ping_uri w (address cik x (row_doc x)) ; w_open w uri).
Proof.
  intros Hc Hd Hx. unfold open_metadata. cbn [m_recent m_name].
  assert (Hi : exists i, choose (table rows) type date = Ok i).
  { destruct Hx as (b & a & -> & W & _). eapply choose_some; eauto. apply in_elt. }
  destruct Hi as (i & Ei). rewrite Ei. cbn [bind].
  destruct (choose_latest _ _ _ _ Hd Ei) as (x' & Ex & Hx').
  rewrite (latest_unique _ _ _ _ _ Hd Hx' Hx) in Ex.
  rewrite (filing_uri_row _ _ _ _ Hc Ex). cbn [bind].
  destruct (ping_uri w _) as [uri|e]; [|reflexivity]. cbn [bind].
  unfold table at 1. cbn [r_date]. rewrite at_map, Ex. reflexivity.
Qed.

(** The latest of the filings asked for is opened, at its address in the archive. *)
Theorem C50_opens {F} (w : world F) cik type date rows name x :
  accepted w cik type date -> works_with w (Metadata (table rows) (Some name)) ->
  all_dated rows type date -> latest rows type date x ->
  (forall p, row_doc x <> p ++ u ".htm") ->
  fst (open_edgar w cik type date) = w_open w (address cik x (row_doc x)).
Proof.
  intros Ha Hw Hd Hx Hn. destruct (open_accepted _ _ _ _ _ Ha Hw) as (w' & P1 & P2 & ->). cbn [fst].
  destruct Ha as (Hc & _). rewrite (opens_uri _ _ _ _ _ _ _ Hc Hd Hx). unfold ping_uri.
  destruct (ends_with (u ".htm") _) eqn:E; [|cbn [bind]; rewrite P2; reflexivity]. exfalso.
  destruct (Nat.le_gt_cases 4 (length (row_doc x))) as [L|L].
  - rewrite <- (app_nil_l (row_doc x)), address_app in E.
    rewrite ends_with_tail in E by exact L. apply ends_with_spec in E as (p & E). apply (Hn p E).
  - apply ends_with_spec in E as (p & E).
    assert (A : exists q, address cik x (row_doc x) = q ++ ch "/" :: row_doc x).
    { exists (archive ++ repeat (ch "0") (10 - length cik) ++ cik ++ u "/" ++ without_hyphens (row_accession x)).
      unfold address. rewrite <- !app_assoc. reflexivity. }
    destruct A as (q & A). rewrite A in E.
    assert (I : In (ch "/") (u ".htm")).
    { apply (f_equal (@rev N)) in E. rewrite !rev_app_distr in E. cbn [rev] in E.
      apply (f_equal (firstn 4)) in E. rewrite firstn_app in E.
      rewrite (firstn_all2 (n := 4) (rev (row_doc x) ++ [ch "/"])) in E
        by (rewrite app_length, rev_length; cbn; lia).
      assert (R : firstn 4 (rev (u ".htm") ++ rev p) = rev (u ".htm")) by reflexivity.
      rewrite R in E. apply in_rev. rewrite <- E. apply in_or_app; left. apply in_or_app; right; cbn; auto. }
    vm_compute in I. intuition discriminate.
Qed.

(** A page is replaced by the instance document made from it, which has to exist. *)
Theorem C50_opens_page {F} (w : world F) cik type date rows name x p :
  accepted w cik type date -> works_with w (Metadata (table rows) (Some name)) ->
  all_dated rows type date -> latest rows type date x ->
  all_digits (without_hyphens (row_accession x)) ->
  row_doc x = p ++ u ".htm" -> contains (u ".htm") p = false ->
  fst (open_edgar w cik type date) =
    if N.eqb (w_ping w (address cik x (p ++ u "_htm.xml"))) 200
    then w_open w (address cik x (p ++ u "_htm.xml")) else Raise ValueError.
Proof.
  intros Ha Hw Hd Hx Hacc Ep Hp. destruct (open_accepted _ _ _ _ _ Ha Hw) as (w' & P1 & P2 & ->). cbn [fst].
  destruct Ha as (Hc & _). rewrite (opens_uri _ _ _ _ _ _ _ Hc Hd Hx). unfold ping_uri.
  rewrite Ep, !address_app.
  assert (ends_with (u ".htm") (address cik x p ++ u ".htm") = true) as ->
    by (apply ends_with_spec; eauto).
  assert (R : replace_all (u ".htm") (u "_htm.xml") (address cik x p ++ u ".htm") = address cik x p ++ u "_htm.xml").
  { change (u ".htm") with (ch "." :: u "htm"). apply replace_end.
    - vm_compute; intuition discriminate.
    - apply (address_free cik x p Hc Hacc Hp). }
  rewrite R, P1, P2. destruct (N.eqb _ 200); reflexivity.
Qed.

(** The call fails exactly if no filing is asked for that exists. *)
Theorem C50_succeeds_iff {F} (w : world F) cik type date rows name :
  accepted w cik type date -> works_with w (Metadata (table rows) (Some name)) ->
  all_dated rows type date ->
  (forall uri, w_ping w uri = 200%N) -> (forall uri, exists f, w_open w uri = Ok f) ->
  ((exists f, fst (open_edgar w cik type date) = Ok f) <-> exists x, In x rows /\ wanted type date x).
Proof.
  intros Ha Hw Hd Hp Ho. destruct (open_accepted _ _ _ _ _ Ha Hw) as (w' & P1 & P2 & ->). cbn [fst].
  destruct Ha as (Hc & _). split.
  - intros (f & E). unfold open_metadata in E. cbn [m_recent] in E.
    destruct (choose (table rows) type date) as [i|e] eqn:Ei; [|discriminate].
    destruct (choose_latest _ _ _ _ Hd Ei) as (x & Ex & (b & a & -> & W & _)).
    exists x. split; [apply in_elt|exact W].
  - intros (x0 & Hx0 & W0). destruct (choose_some _ _ _ _ Hd Hx0 W0) as (i & Ei).
    destruct (choose_latest _ _ _ _ Hd Ei) as (x & _ & Hx).
    rewrite (opens_uri _ _ _ _ _ _ _ Hc Hd Hx). unfold ping_uri. rewrite P1, P2.
    destruct (ends_with _ _); [rewrite Hp; cbn [N.eqb]|]; cbn [bind]; apply Ho.
Qed.

(** ... and then with [ValueError], whatever the dates look like *)
Theorem C50_none {F} (w : world F) cik type date rows name :
  accepted w cik type date -> works_with w (Metadata (table rows) name) ->
  (forall x, In x rows -> ~ wanted type date x) ->
  fst (open_edgar w cik type date) = Raise ValueError.
Proof.
  intros Ha Hw Hn. destruct (open_accepted _ _ _ _ _ Ha Hw) as (w' & _ & _ & ->). cbn [fst].
  unfold open_metadata. cbn [m_recent]. rewrite choose_none by exact Hn. reflexivity.
Qed.

(** Whenever a filing asked for exists there is a latest one, and only one. *)
Theorem C50_latest rows type date : all_dated rows type date ->
  (exists x, In x rows /\ wanted type date x) ->
  exists x, latest rows type date x /\ forall x', latest rows type date x' -> x' = x.
Proof.
  intros Hd (x0 & Hx0 & W0). destruct (choose_some _ _ _ _ Hd Hx0 W0) as (i & Ei).
  destruct (choose_latest _ _ _ _ Hd Ei) as (x & _ & Hx). exists x. split; [exact Hx|].
  intros x' Hx'. eapply latest_unique; eauto.
Qed.

(** Wrong arguments are refused before anything is downloaded or opened. *)
Theorem C50_refused {F} (w : world F) cik type date :
  10 < length cik \/ ~ In type [u "10-K"; u "10-Q"; u "8-K"] \/ (exists d, date = Some d /\ w_strptime w d = false) ->
  open_edgar w cik type date = (Raise ValueError, w).
Proof.
  intros H. unfold open_edgar.
  destruct (match date with Some d => negb (w_strptime w d) | None => false end) eqn:E1; [reflexivity|].
  destruct (Nat.ltb 10 (length cik)) eqn:E2; [reflexivity|].
  destruct (existsb (str_eqb type) supported) eqn:E3; [|reflexivity]. exfalso.
  destruct H as [H|[H|(d & -> & H)]].
  - apply Nat.ltb_ge in E2. lia.
  - apply existsb_exists in E3 as (t & I & E). apply str_eqb_eq in E. subst t. apply H, I.
  - rewrite H in E1. discriminate.
Qed.

(** A filing of the type asked for that has no report date makes the call fail although there
    are others. *)
Definition row1 : row := Row (u "10-K") (u "1") (u "2022-09-24") (u "0000320193-22-000108") (u "aapl.htm").
Definition row2 : row := Row (u "10-K") (u "1") (u "2023-09-30") (u "0000320193-23-000106") (u "aapl2.htm").
Definition row2' : row := Row (u "10-K") (u "1") (u "2023-09-30") (u "0000320193-23-000107") (u "aapl3.xml").
Definition row3 : row := Row (u "10-Q") (u "1") (u "2023-12-30") (u "0000320193-24-000006") (u "aapl4.htm").
Definition row4 : row := Row (u "10-K") (u "1") [] (u "0000320193-24-000007") (u "aapl5.htm").
Definition web (rows : list row) (cache : option (Z * metadata)) : world str :=
  World cache (Some (Metadata (table rows) (Some (u "Apple Inc.")))) (fun _ => 200%N) (fun uri => Ok uri) (fun _ => true).

Theorem C50_undated_refuted : ~ forall (w : world str) cik type date rows name,
  accepted w cik type date -> works_with w (Metadata (table rows) (Some name)) ->
  (forall uri, w_ping w uri = 200%N) -> (forall uri, exists f, w_open w uri = Ok f) ->
  (exists x, In x rows /\ wanted type date x /\ dated x) ->
  exists f, fst (open_edgar w cik type date) = Ok f.
Proof.
  intros H. destruct (H (web [row1; row4] None) (u "320193") (u "10-K") None [row1; row4] (u "Apple Inc.")) as (f & E).
  - split; [split; [reflexivity|vm_compute; lia]|]. split; [left; reflexivity|exact I].
  - reflexivity.
  - reflexivity.
  - intros uri. exists uri. reflexivity.
  - exists row1. split; [left; reflexivity|]. split; [split; [|split]; [reflexivity..|exact I]|].
    exists 2022%Z, 9%Z, 24%Z, (u "2022"), (u "09"), (u "24"). repeat split.
  - vm_compute in E. discriminate E.
Qed.

(** Of several filings of one day the first listed one is opened; the page is replaced. *)
Example C50_example : fst (open_edgar (web [row1; row3; row2; row2'] None) (u "320193") (u "10-K") None) =
  Ok (u "https://www.sec.gov/Archives/edgar/data/0000320193/000032019323000106/aapl2_htm.xml").
Proof. reflexivity. Qed.

Example C50_example_latest : latest [row1; row3; row2; row2'] (u "10-K") None row2 /\
  all_dated [row1; row3; row2; row2'] (u "10-K") None.
Proof.
  assert (D1 : iso_date (row_date row1) 2022 9 24)
    by (exists (u "2022"), (u "09"), (u "24"); repeat split).
  assert (D2 : iso_date (row_date row2) 2023 9 30)
    by (exists (u "2023"), (u "09"), (u "30"); repeat split).
  assert (D3 : iso_date (row_date row3) 2023 12 30)
    by (exists (u "2023"), (u "12"), (u "30"); repeat split).
  split.
  - exists [row1; row3], [row2']. split; [reflexivity|]. split; [repeat split|]. split.
    + intros z Hz W y m d y' m' d' H H'.
      destruct (iso_date_fun _ _ _ _ _ _ _ D2 H) as (<- & <- & <-).
      cbn in Hz. destruct Hz as [<-|[<-|[<-|[]]]].
      * destruct (iso_date_fun _ _ _ _ _ _ _ D1 H') as (<- & <- & <-). lia.
      * destruct W as (W & _). discriminate W.
      * destruct (iso_date_fun _ _ _ _ _ _ _ D2 H') as (<- & <- & <-). lia.
    + intros z [<-|[<-|[]]] W; [discriminate|]. destruct W as (W & _). discriminate W.
  - intros z [<-|[<-|[<-|[<-|[]]]]] _; do 3 eexists; [exact D1|exact D3|exact D2|exact D2].
Qed.

(** *** C61 *)

(** Metadata younger than two days is used as it is; older metadata is replaced by what the server
    has, and the call fails without it. *)
Theorem C61_metadata {F} (w : world F) :
  load_metadata w =
    match w_cache w with
    | Some (age, m) =>
        if (age <? 2 * 86400)%Z then (Ok m, w)
        else match w_server w with
             | Some m' => (Ok m', with_cache w (Some (0%Z, m')))
             | None => (Raise ValueError, w)
             end
    | None => match w_server w with
              | Some m' => (Ok m', with_cache w (Some (0%Z, m')))
              | None => (Raise ValueError, w)
              end
    end.
Proof.
  unfold load_metadata, download. destruct (w_cache w) as [[age m]|]; [|destruct (w_server w); reflexivity].
  assert ((1 <? age / 86400)%Z = negb (age <? 2 * 86400)%Z) as ->.
  { apply eq_true_iff_eq. rewrite negb_true_iff, Z.ltb_lt, Z.ltb_ge.
    pose proof (Z.div_mod age 86400 ltac:(lia)). pose proof (Z.mod_pos_bound age 86400 ltac:(lia)). lia. }
  destruct (_ <? _)%Z; cbn [negb]; [reflexivity|]. destruct (w_server w); reflexivity.
Qed.

(** A second call works with the same metadata and downloads nothing, as long as the file is not
    two days old. *)
Theorem C61_second_call {F} (w w' : world F) m age : load_metadata w = (Ok m, w') -> (age < 2 * 86400)%Z ->
  match w_cache w' with
  | Some (_, c) => c = m /\ load_metadata (with_cache w' (Some (age, c))) = (Ok m, with_cache w' (Some (age, c)))
  | None => False
  end.
Proof.
  rewrite C61_metadata. intros E L.
  assert (G : forall c, load_metadata (with_cache w' (Some (age, c))) = (Ok c, with_cache w' (Some (age, c)))).
  { intros c. rewrite C61_metadata. cbn [w_cache with_cache]. apply Z.ltb_lt in L. rewrite L. reflexivity. }
  destruct (w_cache w) as [[a c]|] eqn:Ec.
  - destruct (_ <? _)%Z; [injection E as -> <-; rewrite Ec; split; [reflexivity|apply G]|].
    destruct (w_server w); [injection E as -> <-; cbn [w_cache with_cache] in *; split; [reflexivity|apply G]|discriminate].
  - destruct (w_server w); [injection E as -> <-; cbn [w_cache with_cache] in *; split; [reflexivity|apply G]|discriminate].
Qed.

(** "If the file is older than 1 day, download it again": a file of 36 hours is used. *)
Theorem C61_older_than_a_day_refuted : ~ forall (w : world str) age c m,
  w_cache w = Some (age, c) -> (86400 < age)%Z -> w_server w = Some m -> fst (load_metadata w) = Ok m.
Proof.
  intros H.
  pose proof (H (web [row1; row2] (Some (129600%Z, Metadata (table [row1]) None))) _ _
    (Metadata (table [row1; row2]) (Some (u "Apple Inc."))) eq_refl ltac:(lia) eq_refl) as E.
  vm_compute in E. discriminate E.
Qed.

Example C61_example :
  fst (open_edgar (web [row1; row2] (Some (180000%Z, Metadata (table [row1]) None))) (u "320193") (u "10-K") None) =
  Ok (u "https://www.sec.gov/Archives/edgar/data/0000320193/000032019323000106/aapl2_htm.xml").
Proof. reflexivity. Qed.

Print Assumptions C50_opens.
Print Assumptions C50_opens_page.
Print Assumptions C50_succeeds_iff.
Print Assumptions C50_none.
Print Assumptions C50_latest.
Print Assumptions C50_refused.
Print Assumptions C50_undated_refuted.
Print Assumptions C61_metadata.
Print Assumptions C61_second_call.
Print Assumptions C61_older_than_a_day_refuted.
