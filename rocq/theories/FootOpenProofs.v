(** Which relationships of footnotes can be read. *)
From Coq Require Import QArith.
From Verif Require Import Base ErrBase ErrTable ErrModel ValueModel FootModel FootSpec FootProofs FootProps FootOpenSpec.
From Verif Require InlineFootProofs ValueProps.
Local Open Scope nat_scope.

(** ** The nodes *)

Section Nodes.
Variable ns : notes.
Variable fs : facts.
Notation holds d id := (dict_mem str_eqb d id = true).

Lemma holds_set (d : nodes) k v id : holds (dict_set str_eqb d k v) id <-> holds d id \/ id = k.
Proof.
  unfold dict_mem. rewrite get_set. destruct (str_eqb_spec id k) as [->|H]; [tauto|].
  destruct (dict_get str_eqb d id); split; [auto|reflexivity|discriminate|intros [K|K]; [exact K|contradiction]].
Qed.
Definition object (id : str) : res target := match dict_get str_eqb ns id with Some n => Ok (TNote n) | None => get_by_id fs id end.
Lemma object_truth id : (judged ns fs id <-> exists b, (do! o <- object id ; truth o) = Ok b) /\ (true_of ns fs id <-> (do! o <- object id ; truth o) = Ok true).
Proof.
  unfold judged, true_of, object, get_by_id. rewrite <- (dict_mem_in ns id). unfold dict_mem. destruct (dict_get str_eqb ns id) as [n|]; cbn [bind truth].
  - split; split; eauto.
  - destruct (dict_get str_eqb fs id) as [t|]; cbn [bind truth].
    + split.
      * split; [intros [K|(t' & [= <-] & [K|K])]; [discriminate K| |]|].
        -- exists true. apply ValueProps.boolean_upper, K.
        -- exists false. apply ValueProps.boolean_upper, K.
        -- intros ([|] & K); apply ValueProps.boolean_upper in K; eauto.
      * rewrite ValueProps.boolean_upper. split; [intros [K|(t' & [= <-] & K)]; [discriminate K|exact K]|eauto].
    + split; (split; [intros [K|(t' & [=] & _)]; discriminate K|]); [intros (b & K)|intros K]; discriminate K.
Qed.
Lemma get_fact id : (exists o, get_by_id fs id = Ok o) <-> In id (map fst fs).
Proof.
  unfold get_by_id. rewrite <- dict_mem_in. unfold dict_mem. destruct (dict_get str_eqb fs id); split; eauto; try discriminate. intros (o & [=]).
Qed.

Variable roots : list str.
Definition sound (d : nodes) : Prop := forall id, holds d id -> In id roots /\ In id (map fst fs) \/ ~ In id roots /\ true_of ns fs id.

Lemma from_adds a ids : forall d, sound d ->
  ((exists d', add_from fs roots a ids d = Ok d') <-> forall id, In id ids -> In id roots -> In id (map fst fs)) /\
  forall d', add_from fs roots a ids d = Ok d' -> sound d' /\ forall id, holds d' id <-> holds d id \/ In id ids /\ In id roots.
Proof.
  induction ids as [|i ids IH]; intros d Hd; cbn [add_from].
  - split; [split; [intros _ id []|eauto]|]. intros d' [= <-]. split; [exact Hd|]. intros id. cbn [In]. tauto.
  - destruct (negb (dict_mem str_eqb d i) && mem i roots) eqn:C.
    + apply andb_prop in C as [C1 C2]. apply mem_spec in C2. destruct (get_by_id fs i) as [o|] eqn:G; cbn [bind].
      * assert (Hi : In i (map fst fs)) by (apply get_fact; eauto).
        assert (Hs : sound (dict_set str_eqb d i (Node o [] (a_arcrole a) (a_linkrole a) 1%Q))).
        { intros id H. apply holds_set in H as [H| ->]; [exact (Hd _ H)|left; split; assumption]. }
        destruct (IH _ Hs) as [A B]. split.
        -- rewrite A. split; [intros H id [<-|K] R; [exact Hi|exact (H id K R)]|intros H id K; apply H; right; exact K].
        -- intros d' E. destruct (B _ E) as [B1 B2]. split; [exact B1|]. intros id. rewrite B2, holds_set. cbn [In].
           split; [intros [[K| ->]|[K1 K2]]; auto|intros [K|[[<-|K] K2]]; auto].
      * split; [split; [intros (d' & [=])|]|intros d' [=]]. intros H. exfalso. destruct (proj2 (get_fact i) (H i (or_introl eq_refl) C2)) as (o & K). congruence.
    + destruct (IH d Hd) as [A B].
      assert (Hi : In i roots -> holds d i).
      { intros R. apply mem_spec in R. rewrite R, andb_true_r in C. apply negb_false_iff in C. exact C. }
      split.
      * rewrite A. split; [|intros H id K; apply H; right; exact K]. intros H id [<-|K] R; [|exact (H id K R)].
        destruct (Hd i (Hi R)) as [[_ K]|[K _]]; [exact K|contradiction].
      * intros d' E. destruct (B _ E) as [B1 B2]. split; [exact B1|]. intros id. rewrite B2. cbn [In].
        split; [intros [K|[K1 K2]]; auto|intros [K|[[<-|K] K2]]; auto].
Qed.

Lemma to_adds a ids : (forall id, In id ids -> ~ In id roots) -> forall d, sound d ->
  ((exists d', add_to ns fs a ids d = Ok d') <-> forall id, In id ids -> judged ns fs id) /\
  forall d', add_to ns fs a ids d = Ok d' -> sound d' /\ forall id, holds d' id <-> holds d id \/ In id ids /\ true_of ns fs id.
Proof.
  induction ids as [|i ids IH]; intros Hr d Hd; cbn [add_to].
  - split; [split; [intros _ id []|eauto]|]. intros d' [= <-]. split; [exact Hd|]. intros id. cbn [In]. tauto.
  - specialize (IH (fun id K => Hr id (or_intror K))). assert (Ri := Hr i (or_introl eq_refl)).
    destruct (object_truth i) as [Tj Tt]. destruct (dict_mem str_eqb d i) eqn:C; cbn [negb].
    + assert (Ti : true_of ns fs i) by (destruct (Hd i C) as [[K _]|[_ K]]; [contradiction|exact K]).
      assert (Ji : judged ns fs i) by (apply Tj; exists true; apply Tt, Ti).
      destruct (IH d Hd) as [A B]. split.
      * rewrite A. split; [intros H id [<-|K]; [exact Ji|exact (H id K)]|intros H id K; apply H; right; exact K].
      * intros d' E. destruct (B _ E) as [B1 B2]. split; [exact B1|]. intros id. rewrite B2. cbn [In].
        split; [intros [K|[K1 K2]]; auto|intros [K|[[<-|K] K2]]; auto].
    + fold (object i). destruct (object i) as [o|] eqn:O; cbn [bind] in *.
      2:{ split; [|intros d' [=]]. split; [intros (d' & [=])|]. intros H. exfalso.
          destruct (proj1 Tj (H i (or_introl eq_refl))) as (b & [=]). }
      destruct (truth o) as [[|]|] eqn:T; cbn [bind].
      * assert (Ti : true_of ns fs i) by (apply Tt; reflexivity).
        assert (Ji : judged ns fs i) by (apply Tj; eauto).
        assert (Hs : sound (dict_set str_eqb d i (Node o [] (a_arcrole a) (a_linkrole a) (a_order a)))).
        { intros id H. apply holds_set in H as [H| ->]; [exact (Hd _ H)|right; split; assumption]. }
        destruct (IH _ Hs) as [A B]. split.
        -- rewrite A. split; [intros H id [<-|K]; [exact Ji|exact (H id K)]|intros H id K; apply H; right; exact K].
        -- intros d' E. destruct (B _ E) as [B1 B2]. split; [exact B1|]. intros id. rewrite B2, holds_set. cbn [In].
           split; [intros [[K| ->]|[K1 K2]]; auto|intros [K|[[<-|K] K2]]; auto].
      * assert (Ji : judged ns fs i) by (apply Tj; eauto). destruct (IH d Hd) as [A B]. split.
        -- rewrite A. split; [intros H id [<-|K]; [exact Ji|exact (H id K)]|intros H id K; apply H; right; exact K].
        -- intros d' E. destruct (B _ E) as [B1 B2]. split; [exact B1|]. intros id. rewrite B2. cbn [In].
           split; [intros [K|[K1 K2]]; auto|intros [K|[[<-|K] K2]]; auto]. apply Tt in K2. discriminate K2.
      * split; [|intros d' [=]]. split; [intros (d' & [=])|]. intros H. exfalso. destruct (proj1 Tj (H i (or_introl eq_refl))) as (b & [=]).
Qed.

Lemma arcs_add arcs : (forall a id, In a arcs -> In id (a_to a) -> ~ In id roots) -> forall d, sound d ->
  ((exists d', add_arcs ns fs roots arcs d = Ok d') <-> forall a, In a arcs ->
     (forall id, In id (a_from a) -> In id roots -> In id (map fst fs)) /\ forall id, In id (a_to a) -> judged ns fs id) /\
  forall d', add_arcs ns fs roots arcs d = Ok d' -> forall id, holds d' id <-> holds d id \/
    exists a, In a arcs /\ (In id (a_from a) /\ In id roots \/ In id (a_to a) /\ true_of ns fs id).
Proof.
  induction arcs as [|a arcs IH]; intros Hr d Hd; cbn [add_arcs].
  - split; [split; [intros _ a []|eauto]|]. intros d' [= <-] id. split; [auto|]. intros [K|(a & [] & _)]; exact K.
  - specialize (IH (fun b id K => Hr b id (or_intror K))). destruct (from_adds a (a_from a) d Hd) as [A1 B1].
    destruct (add_from fs roots a (a_from a) d) as [d1|] eqn:E1; cbn [bind].
    2:{ split; [|intros d' [=]]. split; [intros (d' & [=])|]. intros H. destruct (proj2 A1 (proj1 (H a (or_introl eq_refl)))) as (d' & [=]). }
    destruct (B1 _ eq_refl) as [S1 M1]. destruct (to_adds a (a_to a) (fun id => Hr a id (or_introl eq_refl)) d1 S1) as [A2 B2].
    destruct (add_to ns fs a (a_to a) d1) as [d2|] eqn:E2; cbn [bind].
    2:{ split; [|intros d' [=]]. split; [intros (d' & [=])|]. intros H. destruct (proj2 A2 (proj2 (H a (or_introl eq_refl)))) as (d' & [=]). }
    destruct (B2 _ eq_refl) as [S2 M2]. destruct (IH d2 S2) as [A3 B3]. split.
    + rewrite A3. split; [|intros H b K; apply H; right; exact K]. intros H b [<-|K]; [|exact (H b K)]. split; [apply A1; eauto|apply A2; eauto].
    + intros d' E id. rewrite (B3 _ E id), M2, M1. split.
      * intros [[[K|K]|K]|(b & Hb & K)]; [auto|right; exists a; split; [left; reflexivity|auto]..|right; exists b; split; [right; exact Hb|exact K]].
      * intros [K|(b & [<-|Hb] & [K|K])]; eauto 6.
Qed.
End Nodes.

Lemma add_child_holds (d : nodes) from to id : dict_mem str_eqb (add_child d from to) id = dict_mem str_eqb d id.
Proof. unfold dict_mem. rewrite add_child_get. destruct (str_eqb id from); [|reflexivity]. destruct (dict_get str_eqb d id); reflexivity. Qed.
Lemma connect_iff pairs : forall d, (exists d', connect d pairs = Ok d') <->
  forall p, In p pairs -> dict_mem str_eqb d (fst p) = true /\ dict_mem str_eqb d (snd p) = true.
Proof.
  induction pairs as [|[f t] pairs IH]; intros d; cbn [connect].
  - split; [intros _ p []|eauto].
  - destruct (dict_mem str_eqb d f) eqn:Ef, (dict_mem str_eqb d t) eqn:Et; cbn [andb].
    1:{ rewrite IH. split.
        - intros H p [<-|K]; [auto|]. specialize (H p K). rewrite !add_child_holds in H. exact H.
        - intros H p K. rewrite !add_child_holds. apply H. right. exact K. }
    all: split; [intros (d' & [=])|intros H; destruct (H (f, t) (or_introl eq_refl)) as [K1 K2]; cbn [fst snd] in *; congruence].
Qed.
Lemma connect_holds pairs : forall d d', connect d pairs = Ok d' -> forall id, dict_mem str_eqb d' id = dict_mem str_eqb d id.
Proof.
  induction pairs as [|[f t] pairs IH]; intros d d'; cbn [connect]; [intros [= <-]; reflexivity|].
  destruct (_ && _); [|discriminate]. intros E id. rewrite (IH _ _ E). apply add_child_holds.
Qed.

(** ** The networks *)

Section Network.
Variable e : env.
Hypothesis He : lists_sets (e_set e).
Variable ns : notes.
Variable fs : facts.

Definition arcs_fine (arcs : list arc) : Prop :=
  let led id := exists a, In a arcs /\ In id (a_to a) in
  forall a, In a arcs ->
    (forall id, In id (a_from a) -> led id \/ In id (map fst fs)) /\
    (forall id, In id (a_to a) -> judged ns fs id) /\
    forall from to, In from (a_from a) -> In to (a_to a) -> true_of ns fs to /\ (led from -> true_of ns fs from).

Lemma led_dec (arcs : list arc) id : (exists a, In a arcs /\ In id (a_to a)) \/ ~ exists a, In a arcs /\ In id (a_to a).
Proof. destruct (in_dec (list_eq_dec N.eq_dec) id (flat_map a_to arcs)) as [H|H]; rewrite in_flat_map in H; auto. Qed.

Lemma network_iff arcs l : (exists nw, build_network e ns fs arcs l = Ok nw) <-> arcs_fine arcs.
Proof.
  assert (R := roots_in e He arcs).
  destruct (arcs_add ns fs (roots_of e arcs) arcs) with (d := @nil (str * node)) as [A B].
  { intros a id Ha Hi Hr. apply R in Hr as [_ Hr]. apply Hr. eauto. }
  { intros id [=]. }
  unfold build_network, create_nodes. fold (roots_of e arcs). destruct (add_arcs ns fs (roots_of e arcs) arcs []) as [d|] eqn:E; cbn [bind].
  - specialize (B _ eq_refl).
    assert (B' : forall id, dict_mem str_eqb d id = true <-> In id (roots_of e arcs) \/ (exists a, In a arcs /\ In id (a_to a)) /\ true_of ns fs id).
    { intros id. rewrite B. split.
      - intros [[=]|(a & Ha & [[_ K]|[K1 K2]])]; eauto 6.
      - intros [K|[(a & Ha & K) K2]]; [|eauto 6]. right. assert (K' := K). apply R in K' as [(a & Ha & K') _]. eauto 6. }
    assert (Hall : forallb (dict_mem str_eqb d) (roots_of e arcs) = true) by (apply forallb_forall; intros id K; apply B'; auto).
    rewrite Hall. cbn [bind].
    assert (C : (exists nw, (do! d0 <- connect d (pairs_of arcs); Ok (Network l d0 (roots_of e arcs))) = Ok nw) <-> exists d', connect d (pairs_of arcs) = Ok d').
    { destruct (connect d (pairs_of arcs)); cbn [bind]; split; eauto; intros (y & [=]). }
    rewrite C, connect_iff. clear C. unfold arcs_fine. cbv zeta.
    assert (A' := proj1 A (ex_intro _ _ eq_refl)). clear A. split.
    + intros H a Ha. destruct (A' a Ha) as [A1 A2]. split; [|split; [exact A2|]].
      * intros id Hi. destruct (led_dec arcs id) as [L|L]; [auto|]. right. apply A1; [exact Hi|]. apply R. eauto.
      * intros f t Hf Ht. assert (Hp : In (f, t) (pairs_of arcs)) by (apply in_pairs; eauto).
        specialize (H _ Hp). cbn [fst snd] in H. rewrite !B' in H. destruct H as [H1 H2]. split.
        -- destruct H2 as [K|[_ K]]; [|exact K]. apply R in K as [_ K]. destruct K. eauto.
        -- intros L. destruct H1 as [K|[_ K]]; [|exact K]. apply R in K as [_ K]. contradiction.
    + intros H [f t] Hp. apply in_pairs in Hp as (a & Ha & Hf & Ht). cbn [fst snd]. rewrite !B'. destruct (H a Ha) as (_ & _ & H3).
      destruct (H3 f t Hf Ht) as [K1 K2]. split; [|right; eauto]. destruct (led_dec arcs f) as [L|L]; [right; auto|]. left. apply R. eauto.
  - split; [intros (nw & [=])|]. intros H. exfalso. unfold arcs_fine in H. cbv zeta in H.
    destruct (proj2 A) as (d & [=]). intros a Ha. destruct (H a Ha) as (H1 & H2 & _). split; [|exact H2].
    intros id Hi Hr. destruct (H1 id Hi) as [K|K]; [|exact K]. apply R in Hr as [_ Hr]. contradiction.
Qed.

Lemma network_nodes arcs l nw : build_network e ns fs arcs l = Ok nw -> forall id, dict_mem str_eqb (nw_nodes nw) id = true <->
  (exists a, In a arcs /\ In id (a_to a)) /\ true_of ns fs id \/ ~ (exists a, In a arcs /\ In id (a_to a)) /\ exists a, In a arcs /\ In id (a_from a).
Proof.
  assert (R := roots_in e He arcs).
  destruct (arcs_add ns fs (roots_of e arcs) arcs) with (d := @nil (str * node)) as [_ B].
  { intros a id Ha Hi Hr. apply R in Hr as [_ Hr]. apply Hr. eauto. }
  { intros id [=]. }
  unfold build_network, create_nodes. fold (roots_of e arcs). destruct (add_arcs ns fs (roots_of e arcs) arcs []) as [d|] eqn:E; cbn [bind]; [|discriminate].
  specialize (B _ eq_refl). destruct (forallb _ _); [|discriminate]. cbn [bind]. destruct (connect d (pairs_of arcs)) as [d'|] eqn:C; [|discriminate]. cbn [bind].
  intros [= <-] id. cbn [nw_nodes]. rewrite (connect_holds _ _ _ C), B. split.
  - intros [[=]|(a & Ha & [[_ K]|[K1 K2]])]; [right; apply R in K as [K1 K2]; auto|left; eauto].
  - right. destruct H as [[(a & Ha & K1) K2]|[K1 (a & Ha & K2)]]; [exists a; auto|]. exists a. split; [exact Ha|]. left. split; [exact K2|]. apply R. eauto.
Qed.
End Network.

(** ** From relationships to arcs *)

Section Relationships.
Variable e : env.
Hypothesis He : lists_sets (e_set e).
Variable ns : notes.
Variable fs : facts.

Definition role_read (o : option str) (d : str) : str :=
  match given o with Some s => if e_uri e s then s else d | None => d end.
Definition from_read (x : rel) : list str := e_set e (words (match given (r_from x) with Some s => s | None => [] end)).
Definition to_read (x : rel) : list str := e_set e (words (match given (r_to x) with Some s => s | None => [] end)).

Lemma role_read_iff o d r : d <> [] -> role_read o d = r <-> role_is e o d r.
Proof.
  intros Hd. unfold role_read, role_is. destruct o as [[|c s]|]; cbn [given].
  - split; [intros <-; left; auto|]. intros [[-> _]|([= <-] & K & _)]; [reflexivity|congruence].
  - destruct (e_uri e (c :: s)) eqn:E.
    + split; [intros <-; right; split; [reflexivity|split; [discriminate|exact E]]|].
      intros [[-> [K|[K|(s' & K & F)]]]|(K & _)]; try discriminate K; [injection K as <-; congruence|injection K as <-; reflexivity].
    + split; [intros <-; left; split; [reflexivity|right; right; eauto]|]. intros [[-> _]|(K & _ & F)]; [reflexivity|injection K as <-; congruence].
  - split; [intros <-; left; auto|]. intros [[-> _]|(K & _)]; [reflexivity|discriminate K].
Qed.

Lemma inserted (es : erepo) code x kw : (exists er, create code (Some x) kw = Ok er) -> exists es', insert es code (Some x) kw = Ok es'.
Proof. intros (er & H). unfold insert. rewrite H. cbn [bind]. eauto. Qed.

Lemma refs_read x es : exists es', parse_refs e x es = Ok (from_read x, to_read x, es').
Proof.
  unfold parse_refs, from_read, to_read. destruct (given (r_from x)) as [f|].
  - cbn [bind]. destruct (given (r_to x)) as [t|]; [cbn [bind]; eauto|].
    destruct (inserted es _ (ERel x) [] (InlineFootProofs.mk_to _)) as (es2 & ->). cbn [bind]. eauto.
  - destruct (inserted es _ (ERel x) [] (InlineFootProofs.mk_from _)) as (es1 & ->). cbn [bind]. destruct (given (r_to x)) as [t|]; [cbn [bind]; eauto|].
    destruct (inserted es1 _ (ERel x) [] (InlineFootProofs.mk_to _)) as (es2 & ->). cbn [bind]. eauto.
Qed.
Lemma refs_valid x from to es : exists es', validate_refs e x from to ns fs es = Ok es'.
Proof.
  unfold validate_refs.
  assert (H1 : exists es1, (if existsb (fun i => mem i to) from then insert es "IXBRL_RELATIONSHIP_REPEATED_ID" (Some (ERel x)) [] else Ok es) = Ok es1)
    by (destruct (existsb _ _); [apply inserted, InlineFootProofs.mk_repeated|eauto]).
  destruct H1 as (es1 & ->). cbn [bind].
  assert (L : forall es0 code l, (exists er, create code (Some (ERel x)) [(u "invalid_ids", e_repr e l)] = Ok er) ->
    exists es1, match l with [] => Ok es0 | _ => insert es0 code (Some (ERel x)) [(u "invalid_ids", e_repr e l)] end = Ok es1).
  { intros es0 code [|i l] Hc; [eauto|]. apply inserted, Hc. }
  destruct (L es1 "IXBRL_RELATIONSHIP_INVALID_FACT_ID_IN_FROMREFS"%string (filter (fun i => negb (dict_mem str_eqb fs i)) from) (InlineFootProofs.mk_bad_from _ _)) as (es2 & ->). cbn [bind].
  destruct (L es2 "IXBRL_RELATIONSHIP_INVALID_FACT_OR_FOOTNOTE_ID_IN_TOREFS"%string (filter (fun i => negb (dict_mem str_eqb fs i) && negb (dict_mem str_eqb ns i)) to)
    (InlineFootProofs.mk_bad_to _ _)) as (es3 & ->). cbn [bind].
  destruct (_ && _); [apply inserted, InlineFootProofs.mk_mixed|eauto].
Qed.
Lemma attributes_read x es : (has_order e x -> exists q es', parse_attributes e x es = Ok (role_read (r_arcrole x) default_arcrole, role_read (r_linkrole x) default_linkrole, q, es')) /\
  ((exists r, parse_attributes e x es = Ok r) -> has_order e x).
Proof.
  assert (U : forall (o : option str) (d : str) code kw (es : erepo), (forall s, exists er, create code (Some (ERel x)) (kw s) = Ok er) -> exists es',
    match given o with
    | None => Ok (d, es)
    | Some s => if e_uri e s then Ok (s, es) else do! es <- insert es code (Some (ERel x)) (kw s) ; Ok (d, es)
    end = Ok (role_read o d, es')).
  { intros o d code kw es0 Hc. unfold role_read. destruct (given o) as [s|]; [|eauto]. destruct (e_uri e s); [eauto|].
    destruct (inserted es0 code (ERel x) (kw s) (Hc s)) as (es1 & ->). cbn [bind]. eauto. }
  unfold parse_attributes.
  destruct (U (r_arcrole x) default_arcrole "IXBRL_RELATIONSHIP_INVALID_ARCROLE"%string (fun s => [(u "arcrole", s)]) es (fun s => InlineFootProofs.mk_arcrole _ s)) as (es1 & ->). cbn [bind].
  destruct (U (r_linkrole x) default_linkrole "IXBRL_RELATIONSHIP_INVALID_LINKROLE"%string (fun s => [(u "linkrole", s)]) es1 (fun s => InlineFootProofs.mk_linkrole _ s)) as (es2 & ->). cbn [bind].
  unfold has_order. split.
  - intros (s & q & E & Hs & Hq). rewrite E. destruct s as [|c s]; [congruence|]. cbn [given]. rewrite Hq. cbn [bind]. eauto.
  - intros (r & H). destruct (r_order x) as [[|c s]|]; cbn [given bind] in H; try discriminate H. destruct (e_float e (c :: s)) as [q|] eqn:Eq.
    + exists (c :: s), q. split; [reflexivity|]. split; [discriminate|exact Eq].
    + destruct (inserted es2 _ (ERel x) _ (InlineFootProofs.mk_order _ (c :: s))) as (es3 & K). rewrite K in H. discriminate H.
Qed.

Definition reads_as (x : rel) (a : arc) : Prop :=
  a_from a = from_read x /\ a_to a = to_read x /\ a_arcrole a = role_read (r_arcrole x) default_arcrole /\ a_linkrole a = role_read (r_linkrole x) default_linkrole.
Lemma relationship_iff x es : (has_order e x <-> exists r, parse_relationship e ns fs x es = Ok r) /\
  forall a es', parse_relationship e ns fs x es = Ok (a, es') -> reads_as x a.
Proof.
  unfold parse_relationship. destruct (refs_read x es) as (es1 & ->). cbn [bind]. destruct (refs_valid x (from_read x) (to_read x) es1) as (es2 & ->). cbn [bind].
  destruct (attributes_read x es2) as [A B]. destruct (parse_attributes e x es2) as [[[[ar lr] q] es3]|] eqn:E; cbn [bind].
  - split; [split; [eauto|intros _; apply B; eauto]|]. destruct (A (B (ex_intro _ _ eq_refl))) as (q' & es' & [= -> -> <- <-]). intros a es4 [= <- <-]. repeat split.
  - split; [|intros a es' [=]]. split; [|intros (r & [=])]. intros H. destruct (A H) as (q' & es' & [=]).
Qed.
Lemma arcs_iff xs : forall es, ((forall x, In x xs -> has_order e x) <-> exists r, parse_arcs e ns fs xs es = Ok r) /\
  forall arcs es', parse_arcs e ns fs xs es = Ok (arcs, es') -> Forall2 reads_as xs arcs.
Proof.
  induction xs as [|x xs IH]; intros es; cbn [parse_arcs].
  - split; [split; [eauto|intros _ x []]|]. intros arcs es' [= <- <-]. constructor.
  - destruct (relationship_iff x es) as [A B]. destruct (parse_relationship e ns fs x es) as [[a es1]|] eqn:E; cbn [bind].
    + destruct (IH es1) as [A' B']. destruct (parse_arcs e ns fs xs es1) as [[arcs es2]|] eqn:E'; cbn [bind].
      * split; [split; [eauto|]|].
        -- intros _ y [<-|Hy]; [apply A; eauto|]. apply A'; eauto.
        -- intros arcs' es' [= <- <-]. constructor; [eapply B; reflexivity|eapply B'; reflexivity].
      * split; [split; [|intros (r & [=])]|intros arcs es' [=]]. intros H. destruct (proj1 A' (fun y K => H y (or_intror K))) as (r & [=]).
    + split; [split; [|intros (r & [=])]|intros arcs es' [=]]. intros H. destruct (proj1 A (H x (or_introl eq_refl))) as (r & [=]).
Qed.

Lemma read_words o w : In w (e_set e (words (match given o with Some s => s | None => [] end))) <-> refers o w.
Proof. exact (InlineFootProofs.from_words e He o w). Qed.

Lemma grouped_iff l r x : grouped e l r x <-> (role_read (r_linkrole x) default_linkrole, role_read (r_arcrole x) default_arcrole) = (l, r).
Proof.
  unfold grouped. rewrite <- (role_read_iff (r_linkrole x) _ l linkrole_there), <- (role_read_iff (r_arcrole x) _ r arcrole_there).
  unfold default_linkrole, default_arcrole. split; [intros [<- <-]; reflexivity|intros [= <- <-]; auto].
Qed.

Lemma map_res_iff {A B} (f : A -> res B) l : (exists ys, map_res f l = Ok ys) <-> forall x, In x l -> exists y, f x = Ok y.
Proof.
  induction l as [|x l IH]; cbn [map_res]; [split; [intros _ x []|eauto]|].
  destruct (f x) as [y|] eqn:E; cbn [bind].
  - destruct (map_res f l) as [ys|]; cbn [bind].
    + split; [intros _ z [<-|K]; [eauto|apply IH; eauto]|eauto].
    + split; [intros (ys & [=])|]. intros H. destruct (proj2 IH (fun z K => H z (or_intror K))) as (ys & [=]).
  - split; [intros (ys & [=])|]. intros H. destruct (H x (or_introl eq_refl)) as (y & K). congruence.
Qed.

Lemma in_read xs arcs l r : Forall2 reads_as xs arcs -> forall P : list str -> list str -> Prop,
  (exists a, In a (filter (fun a => key_eqb (key a) (l, r)) arcs) /\ P (a_from a) (a_to a)) <->
  exists x, In x xs /\ grouped e l r x /\ P (from_read x) (to_read x).
Proof.
  intros F P. induction F as [|x a xs arcs (R1 & R2 & R3 & R4) F IH]; cbn [filter].
  - split; [intros (a & [] & _)|intros (x & [] & _)].
  - assert (G : key_eqb (key a) (l, r) = true <-> grouped e l r x).
    { rewrite grouped_iff. unfold key. rewrite R3, R4. destruct (key_eqb_spec (role_read (r_linkrole x) default_linkrole, role_read (r_arcrole x) default_arcrole) (l, r)); split; auto; discriminate. }
    destruct (key_eqb (key a) (l, r)).
    + split.
      * intros (b & [<-|K] & HP); [exists x; split; [left; reflexivity|]; rewrite <- R1, <- R2; split; [apply G; reflexivity|exact HP]|].
        destruct (proj1 IH (ex_intro _ b (conj K HP))) as (y & J1 & J2). exists y. split; [right; exact J1|exact J2].
      * intros (y & [<-|K] & J & HP); [exists a; split; [left; reflexivity|rewrite R1, R2; exact HP]|].
        destruct (proj2 IH (ex_intro _ y (conj K (conj J HP)))) as (b & J1 & J2). exists b. split; [right; exact J1|exact J2].
    + rewrite IH. split; intros (y & K & J & HP); [exists y; split; [right; exact K|auto]|].
      destruct K as [<-|K]; [apply G in J; discriminate J|]. exists y. auto.
Qed.

Lemma group_fine_iff xs arcs l r : Forall2 reads_as xs arcs ->
  arcs_fine ns fs (filter (fun a => key_eqb (key a) (l, r)) arcs) <-> group_fine e ns fs xs l r.
Proof.
  intros F. assert (G := in_read xs arcs l r F).
  assert (L : forall id, (exists a, In a (filter (fun a => key_eqb (key a) (l, r)) arcs) /\ In id (a_to a)) <-> led_to e xs l r id).
  { intros id. rewrite (G (fun _ t => In id t)). unfold led_to, to_read. split; intros (x & H1 & H2 & H3); exists x; (split; [exact H1|split; [exact H2|apply read_words, H3]]). }
  assert (N : forall P : list str -> list str -> Prop, (forall a, In a (filter (fun a => key_eqb (key a) (l, r)) arcs) -> P (a_from a) (a_to a)) <->
     forall x, In x xs -> grouped e l r x -> P (from_read x) (to_read x)).
  { intros P. clear L G. induction F as [|x a xs arcs (R1 & R2 & R3 & R4) F IH]; cbn [filter].
    - split; [intros _ x []|intros _ a []].
    - assert (K : key_eqb (key a) (l, r) = true <-> grouped e l r x).
      { rewrite grouped_iff. unfold key. rewrite R3, R4. destruct (key_eqb_spec (role_read (r_linkrole x) default_linkrole, role_read (r_arcrole x) default_arcrole) (l, r)); split; auto; discriminate. }
      destruct (key_eqb (key a) (l, r)).
      + split; intros H.
        * intros y [<-|Hy] Hg; [rewrite <- R1, <- R2; apply H; left; reflexivity|]. revert y Hy Hg. apply IH. intros b Hb. apply H. right. exact Hb.
        * intros b [<-|Hb]; [rewrite R1, R2; apply H; [left; reflexivity|apply K; reflexivity]|]. revert b Hb. apply IH. intros y Hy. apply H. right. exact Hy.
      + rewrite IH. split; intros H y Hy Hg; [destruct Hy as [<-|Hy]; [apply K in Hg; discriminate Hg|exact (H y Hy Hg)]|apply H; [right; exact Hy|exact Hg]]. }
  unfold arcs_fine. cbv zeta.
  rewrite (N (fun from to => (forall id, In id from -> (exists a, In a (filter (fun a => key_eqb (key a) (l, r)) arcs) /\ In id (a_to a)) \/ In id (map fst fs)) /\
    (forall id, In id to -> judged ns fs id) /\
    forall f t, In f from -> In t to -> true_of ns fs t /\ ((exists a, In a (filter (fun a => key_eqb (key a) (l, r)) arcs) /\ In f (a_to a)) -> true_of ns fs f))).
  unfold group_fine, from_read, to_read. split; intros H x Hx Hg; destruct (H x Hx Hg) as (H1 & H2 & H3); (split; [|split]).
  - intros id K. apply read_words in K. rewrite <- L. auto.
  - intros id K. apply read_words in K. auto.
  - intros f t Kf Kt. apply read_words in Kf, Kt. rewrite <- L. auto.
  - intros id K. apply read_words in K. rewrite L. auto.
  - intros id K. apply read_words in K. auto.
  - intros f t Kf Kt. apply read_words in Kf, Kt. rewrite L. auto.
Qed.

Lemma networks_iff xs arcs : Forall2 reads_as xs arcs ->
  (exists nws, build_networks e ns fs arcs = Ok nws) <-> forall l r, group_fine e ns fs xs l r.
Proof.
  intros F. unfold build_networks. rewrite map_res_iff. destruct (group_spec arcs) as (N & K & J). split.
  - intros H l r x Hx Hg. apply (proj1 (group_fine_iff xs arcs l r F)); [|exact Hx|exact Hg].
    assert (Hk : In (l, r) (map fst (group arcs))).
    { apply K. destruct (proj2 (in_read xs arcs l r F (fun _ _ => True)) (ex_intro _ x (conj Hx (conj Hg Logic.I)))) as (a & Ha & _).
      apply filter_In in Ha as [Ha Hka]. exists a. split; [exact Ha|]. destruct (key_eqb_spec (key a) (l, r)); [assumption|discriminate]. }
    apply in_map_iff in Hk as ([k g] & Ek & Hk). cbn [fst] in Ek. subst k. rewrite <- (J _ _ Hk). apply (network_iff e He ns fs g r). exact (H _ Hk).
  - intros H [[l r] g] Hg. cbn [fst snd]. apply (network_iff e He). rewrite (J _ _ Hg). apply (group_fine_iff xs arcs l r F), H.
Qed.

Lemma relationships_iff xs es : (exists r, parse_relationships e ns fs xs es = Ok r) <->
  (forall x, In x xs -> has_order e x) /\ forall l r, group_fine e ns fs xs l r.
Proof.
  unfold parse_relationships. destruct (arcs_iff xs es) as [A B]. destruct (parse_arcs e ns fs xs es) as [[arcs es1]|] eqn:E; cbn [bind].
  - rewrite <- (networks_iff xs arcs (B _ _ eq_refl)). destruct (build_networks e ns fs arcs) as [nws|]; cbn [bind].
    + split; [intros _; split; [apply A; eauto|eauto]|eauto].
    + split; [intros (r & [=])|intros [_ (nws & [=])]].
  - split; [intros (r & [=])|]. intros [H _]. apply A in H as (r & [=]).
Qed.
End Relationships.
