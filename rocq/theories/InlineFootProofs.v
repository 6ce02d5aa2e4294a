(** Proofs about the role references, footnotes and relationships of inline filings. *)
From Coq Require Import QArith Lia.
From Verif Require Import Base Regex QNameModel QNameProofs ErrBase ErrTable ErrModel NumModel DateModel CtxModel CtxSpec CtxProofs InlineModel InlineSpec
  InlineProofs InlineStepProofs InlineDocProofs InlineFrame InlineFilingModel InlineFilingSpec InlineFilingProofs.
From Verif Require TextModel TextSpec LinkModel LinkSpec LinkLabelProofs FootModel FootSpec FootProofs FootProps.
Local Open Scope nat_scope.

(** ** Errors that can be recorded *)

Lemma mk_linktype x t : exists e, create (elem := xml) "ROLEREF_INVALID_LINKTYPE" x [(u "linktype", t)] = Ok e. Proof. recordable. Qed.
Lemma mk_no_href x : exists e, create (elem := xml) "ROLEREF_MISSING_HREF_ATTRIBUTE" x [] = Ok e. Proof. recordable. Qed.
Lemma mk_href x t : exists e, create (elem := xml) "ROLEREF_INVALID_HREF_ATTRIBUTE" x [(u "href", t)] = Ok e. Proof. recordable. Qed.
Lemma mk_no_uri x : exists e, create (elem := xml) "ROLEREF_MISSING_ROLE_URI_ATTRIBUTE" x [] = Ok e. Proof. recordable. Qed.
Lemma mk_uri x t : exists e, create (elem := xml) "ROLEREF_INVALID_ROLE_URI_ATTRIBUTE" x [(u "role_uri", t)] = Ok e. Proof. recordable. Qed.
Lemma mk_role x : exists e, create (elem := xml) "ROLEREF_EMPTY_ROLE_ATTRIBUTE" x [] = Ok e. Proof. recordable. Qed.
Section Recordable.
Context {A : Type}.
Lemma mk_note_id x : exists e, create (elem := A) "IXBRL_FOOTNOTE_WITHOUT_ID" x [] = Ok e. Proof. recordable. Qed.
Lemma mk_note_dup x t : exists e, create (elem := A) "IXBRL_DUPLICATE_ELEMENT_ID" x [(u "id",t)] = Ok e. Proof. recordable. Qed.
Lemma mk_note_role x t v : exists e, create (elem := A) "IXBRL_INVALID_FOOTNOTE_ROLE" x [(u "id",t);(u "role", v)] = Ok e. Proof. recordable. Qed.
Lemma mk_note_lang x t : exists e, create (elem := A) "IXBRL_FOOTNOTE_WITHOUT_LANGUAGE" x [(u "id",t)] = Ok e. Proof. recordable. Qed.
Lemma mk_from x : exists e, create (elem := A) "IXBRL_RELATIONSHIP_WITHOUT_FROMREFS" x [] = Ok e. Proof. recordable. Qed.
Lemma mk_to x : exists e, create (elem := A) "IXBRL_RELATIONSHIP_WITHOUT_TOREFS" x [] = Ok e. Proof. recordable. Qed.
Lemma mk_repeated x : exists e, create (elem := A) "IXBRL_RELATIONSHIP_REPEATED_ID" x [] = Ok e. Proof. recordable. Qed.
Lemma mk_bad_from x t : exists e, create (elem := A) "IXBRL_RELATIONSHIP_INVALID_FACT_ID_IN_FROMREFS" x [(u "invalid_ids", t)] = Ok e. Proof. recordable. Qed.
Lemma mk_bad_to x t : exists e, create (elem := A) "IXBRL_RELATIONSHIP_INVALID_FACT_OR_FOOTNOTE_ID_IN_TOREFS" x [(u "invalid_ids", t)] = Ok e. Proof. recordable. Qed.
Lemma mk_mixed x : exists e, create (elem := A) "IXBRL_RELATIONSHIP_MIXED_FACT_AND_FOOTNOTES_IN_TOREFS" x [] = Ok e. Proof. recordable. Qed.
Lemma mk_arcrole x t : exists e, create (elem := A) "IXBRL_RELATIONSHIP_INVALID_ARCROLE" x [(u "arcrole", t)] = Ok e. Proof. recordable. Qed.
Lemma mk_linkrole x t : exists e, create (elem := A) "IXBRL_RELATIONSHIP_INVALID_LINKROLE" x [(u "linkrole", t)] = Ok e. Proof. recordable. Qed.
Lemma mk_order x t : exists e, create (elem := A) "IXBRL_RELATIONSHIP_INVALID_ORDER" x [(u "order", t)] = Ok e. Proof. recordable. Qed.
End Recordable.

(** ** Role references *)

Lemma prefixed_xlink x name l :
  (re_match clark_re name = None /\ exists c, re_match colon_re name = Some c /\ cap c 1 = u "xlink" /\ cap c 2 = u l) ->
  attr_prefixed x name = Ok (xlink_attr x l).
Proof.
  intros (H1 & c & H2 & Hp & Hl). unfold attr_prefixed, qname_from_str. rewrite H1, H2. unfold qname_from_colon. rewrite H2, Hp, Hl. cbn [bind].
  unfold xlink_attr, clark_notation. cbn [q_uri q_local]. rewrite (dict_get_set_other _ key_eqb_spec) by (vm_compute; discriminate).
  destruct (dict_get _ _ _); reflexivity.
Qed.
Ltac xlink_name := split; [vm_compute; reflexivity|eexists; split; [vm_compute; reflexivity|split; vm_compute; reflexivity]].
Lemma xlink_linktype x : attr_prefixed x (u "xlink:linktype") = Ok (xlink_attr x "linktype").
Proof. apply prefixed_xlink. xlink_name. Qed.
Lemma xlink_href x : attr_prefixed x (u "xlink:href") = Ok (xlink_attr x "href").
Proof. apply prefixed_xlink. xlink_name. Qed.
Lemma xlink_role x : attr_prefixed x (u "xlink:role") = Ok (xlink_attr x "role").
Proof. apply prefixed_xlink. xlink_name. Qed.

Local Opaque u create insert.

Lemma does_uri e x v missing invalid (kw : str -> list (str * str)) :
  (exists er, create (elem := xml) missing (Some x) [] = Ok er) -> (forall h, exists er, create (elem := xml) invalid (Some x) (kw h) = Ok er) ->
  does (match FootModel.given v with
        | None => report missing x []
        | Some h => when (negb (FootModel.e_uri e h)) (report invalid x (kw h))
        end) tt (uri_problems (FootModel.e_uri e) x v missing invalid).
Proof.
  intros H1 H2. unfold uri_problems. destruct v as [[|c h]|]; cbn [FootModel.given]; try apply does_report, H1.
  apply does_when, does_report, H2.
Qed.
Lemma does_reference e x : does (parse_role_reference e x) tt (reference_problems (FootModel.e_uri e) "linktype" x).
Proof.
  unfold parse_role_reference, reference_problems. eapply does_lift; [apply xlink_linktype|].
  eapply does_bind; [apply does_when, does_report, mk_linktype|].
  eapply does_lift; [apply xlink_href|].
  eapply does_bind; [apply (does_uri e x _ _ _ (fun h => [(u "href", h)])); intros; [apply mk_no_href|apply mk_href]|].
  eapply does_bind; [apply (does_uri e x _ _ _ (fun h => [(u "role_uri", h)])); intros; [apply mk_no_uri|apply mk_uri]|].
  eapply does_lift; [apply xlink_role|]. apply does_when, does_report, mk_role.
Qed.
Lemma does_references e r : does (parse_role_references e r) tt (flat_map (reference_problems (FootModel.e_uri e) "linktype") (r_roles r ++ r_arcroles r)).
Proof. apply does_for. intros x _. apply does_reference. Qed.

Lemma sort_others kids : forall c,
  r_relationships (sort_resources kids c) = r_relationships c ++ filter (is_named (u "ix:relationship")) kids /\
  r_roles (sort_resources kids c) = r_roles c ++ filter (is_named (u "link:roleRef")) kids /\
  r_arcroles (sort_resources kids c) = r_arcroles c ++ filter (is_named (u "link:arcroleRef")) kids.
Proof.
  unfold sort_resources. induction kids as [|k r IH]; intros c; cbn [fold_left filter].
  { rewrite !app_nil_r. auto. }
  destruct (tag_name k) as [n|e] eqn:E.
  2:{ unfold is_named. rewrite E. apply IH. }
  rewrite !(is_named_ok _ _ _ E).
  destruct (IH (match add_resource n k c with Some c' => c' | None => c end)) as (-> & -> & ->).
  assert (R := resource_names). unfold add_resource.
  repeat match goal with
  | |- context [if str_eqb n (u ?a) then _ else _] =>
      destruct (str_eqb_spec n (u a)) as [->|];
      rewrite ?(R a "ix:relationship"%string), ?(R a "link:roleRef"%string), ?(R a "link:arcroleRef"%string) by (cbn; auto 7);
      cbn [String.eqb Ascii.eqb Bool.eqb r_relationships r_roles r_arcroles]; rewrite <- ?app_assoc; cbn [app]; auto
  end.
Qed.

(** ** Reports about one element *)

Lemma create_about {A} code (a : A) kw er (x : xml) : create code (Some a) kw = Ok er -> create code (Some x) kw = Ok (about x er).
Proof.
  Local Transparent create. unfold create. destruct (dict_get _ _ _) as [en|]; [|discriminate]. destruct (update_message _ _) as [m|]; [|discriminate].
  cbn [bind]. intros [= <-]. reflexivity. Local Opaque create.
Qed.

Section About.
Context {A : Type}.
Variable x : xml.
Definition adds (P : Prop) (code : string) (es es' : repo A) : Prop :=
  exists m, es' = es ++ m /\ (P /\ Forall2 made [(code, Some x)] (map (about x) m) \/ ~ P /\ m = []).
Definition added (cases : list (Prop * problem)) (es es' : repo A) : Prop :=
  exists l m, such cases l /\ es' = es ++ m /\ Forall2 made l (map (about x) m).
Lemma added_nil es : added [] es es.
Proof. exists [], []. rewrite app_nil_r. repeat constructor. Qed.
Lemma added_cons P code r es es1 es2 : adds P code es es1 -> added r es1 es2 -> added ((P, (code, Some x)) :: r) es es2.
Proof.
  intros (m & -> & H) (l & m' & Hl & -> & F). destruct H as [[HP Hm]|[HP ->]].
  - exists ((code, Some x) :: l), (m ++ m'). split; [constructor; assumption|]. split; [symmetry; apply app_assoc|]. rewrite map_app.
    change ((code, Some x) :: l) with ([(code, Some x)] ++ l). apply Forall2_app; assumption.
  - exists l, m'. split; [apply such_no; assumption|]. rewrite app_nil_r. auto.
Qed.
Lemma adds_not P code es : ~ P -> adds P code es es.
Proof. exists []. rewrite app_nil_r. auto. Qed.
Lemma adds_it (P : Prop) code es es' (a : A) kw : P -> insert es code (Some a) kw = Ok es' -> adds P code es es'.
Proof.
  Local Transparent insert. unfold insert. destruct (create _ _ _) as [er|] eqn:E; [|discriminate]. cbn [bind]. intros HP [= <-].
  exists [er]. split; [reflexivity|]. left. split; [exact HP|]. constructor; [|constructor]. exists kw. eapply create_about, E. Local Opaque insert.
Qed.
Lemma adds_if (P : Prop) (b : bool) code es es' (a : A) kw : (b = true <-> P) -> (if b then insert es code (Some a) kw else Ok es) = Ok es' -> adds P code es es'.
Proof.
  intros H. destruct b.
  - apply adds_it, H. reflexivity.
  - intros [= <-]. apply adds_not. intros HP. apply H in HP. discriminate.
Qed.
End About.

(** ** Footnotes *)

Section Notes.
Variable e : FootModel.env.
Variable tostring : TextModel.xml -> str.
Variable all : list place.
Variable cs : list (TextModel.celem * list TextModel.celem).
Notation note_of := (note_of tostring all cs).

Lemma note_of_ok p n : note_of p = Ok n ->
  FootModel.ne_id n = attr (p_xml p) (u "id") /\ FootModel.ne_role n = attr (p_xml p) (u "footnoteRole") /\
  FootModel.ne_title n = attr (p_xml p) (u "title") /\
  (forall l, FootModel.ne_lang n = Some l <-> LinkSpec.speaks (p_xml p) (map plain (p_above p)) l) /\
  (forall id, FootModel.ne_id n = Some id -> id <> [] ->
     exists c, TextModel.extract_relevant_content_from_continuation_chain (map marked (p_tree p :: chain_trees all cs (p_key p))) = Ok c /\
       FootModel.ne_content n = tostring c).
Proof.
  unfold InlineFilingModel.note_of. intros H.
  destruct (match FootModel.given _ with Some _ => _ | None => _ end) as [t|] eqn:E; [|discriminate]. cbn [bind] in H. injection H as <-.
  cbn [FootModel.ne_id FootModel.ne_role FootModel.ne_title FootModel.ne_lang FootModel.ne_content]. repeat (split; [reflexivity|]). split.
  - intros l. exact (LinkProofs.elem_lang_some (p_xml p :: map plain (p_above p)) l).
  - intros id Hi Hn. rewrite Hi in E. destruct id as [|c id]; [congruence|]. cbn [FootModel.given] in E.
    destruct (TextModel.extract_relevant_content_from_continuation_chain _) as [x|]; [|discriminate]. cbn [bind] in E. injection E as <-. eauto.
Qed.

Lemma has_given p id : FootModel.given (attr (p_xml p) (u "id")) = Some id <-> has_id p id.
Proof. apply FootProps.given_some. Qed.
Lemma existsb_in id l : existsb (str_eqb id) l = true <-> In id l.
Proof. exact (FootProofs.mem_spec id l). Qed.

Lemma note_reports p n taken o es taken' : note_of p = Ok n -> FootModel.parse_footnote e n [] taken = Ok (o, es, taken') ->
  (exists l, such (note_cases (FootModel.e_uri e) taken p) l /\ Forall2 made l (map (about (p_xml p)) es)) /\
  forall id, id <> [] -> (In id taken' <-> In id (ids_of [p_xml p] ++ taken)).
Proof.
  intros Hn Hp. apply note_of_ok in Hn as (Hid & Hrole & _ & Hlang & _).
  unfold FootModel.parse_footnote in Hp. rewrite Hid in Hp.
  assert (G : forall cases, added (p_xml p) cases [] es ->
     exists l, such cases l /\ Forall2 made l (map (about (p_xml p)) es)).
  { intros cases (l & m & H1 & -> & H2). exists l. auto. }
  destruct (FootModel.given (attr (p_xml p) (u "id"))) as [id|] eqn:Eg.
  - assert (Hg : forall i, has_id p i <-> i = id). { intros i. rewrite <- has_given, Eg. split; [intros [= <-]; reflexivity|intros ->; reflexivity]. }
    destruct (if existsb _ _ then insert [] _ _ _ else _) as [es1|] eqn:E1 in Hp; [|discriminate]. cbn [bind] in Hp.
    destruct (match FootModel.ne_role n with Some _ => _ | None => _ end) as [[role es2]|] eqn:E2; [|discriminate]. cbn [bind] in Hp.
    destruct (match FootModel.given (FootModel.ne_lang n) with Some _ => _ | None => _ end) as [[lang es3]|] eqn:E3; [|discriminate]. cbn [bind] in Hp.
    injection Hp as _ <- <-. split.
    + apply G. unfold note_cases.
      eapply added_cons; [apply adds_not; intros F; apply (F id), Hg; reflexivity|].
      eapply added_cons; [eapply adds_if; [|exact E1]|].
      { rewrite existsb_in. split; [intros H; exists id; split; [apply Hg; reflexivity|exact H]|intros (i & Hi & H); apply Hg in Hi as ->; exact H]. }
      eapply added_cons; [|eapply added_cons; [|apply added_nil]].
      * rewrite Hrole in E2. destruct (attr (p_xml p) (u "footnoteRole")) as [r|].
        -- destruct (FootModel.e_uri e r) eqn:Eu.
           ++ injection E2 as _ <-. apply adds_not. intros (i & r' & _ & [= <-] & F). congruence.
           ++ destruct (insert _ _ _ _) as [l|] eqn:Ei in E2; [|discriminate]. cbn [bind] in E2. injection E2 as _ <-.
              eapply adds_it; [|exact Ei]. exists id, r. split; [apply Hg; reflexivity|]. auto.
        -- injection E2 as _ <-. apply adds_not. intros (i & r' & _ & [=] & _).
      * destruct (FootModel.given (FootModel.ne_lang n)) as [l|] eqn:El.
        -- injection E3 as _ <-. apply adds_not. intros (i & _ & F). apply FootProps.given_some in El as [El Hl]. apply Hlang, F in El. contradiction.
        -- destruct (insert _ _ _ _) as [k|] eqn:Ei in E3; [|discriminate]. cbn [bind] in E3. injection E3 as _ <-.
           eapply adds_it; [|exact Ei]. exists id. split; [apply Hg; reflexivity|]. intros l Hl. apply Hlang in Hl. rewrite Hl in El.
           destruct l; [reflexivity|discriminate El].
    + intros i Hi. unfold ids_of. cbn [flat_map]. apply FootProps.given_some in Eg as [-> _]. cbn [app]. destruct (existsb (str_eqb id) taken) eqn:C.
      * apply existsb_in in C. cbn [In]. split; [auto|]. intros [<-|H]; assumption.
      * rewrite in_app_iff. cbn [In]. tauto.
  - destruct (insert _ _ _ _) as [es1|] eqn:E1 in Hp; [|discriminate]. cbn [bind] in Hp. injection Hp as _ <- <-.
    assert (Hg : forall i, ~ has_id p i). { intros i. rewrite <- has_given, Eg. discriminate. }
    split.
    + apply G. unfold note_cases.
      eapply added_cons; [eapply adds_it; [exact Hg|exact E1]|].
      eapply added_cons; [apply adds_not; intros (i & Hi & _); exact (Hg _ Hi)|].
      eapply added_cons; [apply adds_not; intros (i & r & Hi & _); exact (Hg _ Hi)|].
      eapply added_cons; [apply adds_not; intros (i & Hi & _); exact (Hg _ Hi)|apply added_nil].
    + intros i Hi. unfold ids_of. cbn [flat_map]. destruct (attr (p_xml p) (u "id")) as [[|c j]|]; cbn [app In]; [|discriminate Eg|tauto].
      split; [auto|]. intros [F|F]; [congruence|exact F].
Qed.

Lemma notes_problems_same uri ps : forall t1 t2 l, (forall i, i <> [] -> (In i t1 <-> In i t2)) ->
  notes_problems uri t1 ps l -> notes_problems uri t2 ps l.
Proof.
  induction ps as [|p ps IH]; intros t1 t2 l H Hl; inversion Hl as [|? ? ? l1 l2 H1 H2]; subst; [constructor|]. constructor.
  - unfold note_cases in *.
    inversion H1 as [|? ? ? ? A1 R1|? ? ? ? A1 R1]; subst; [apply such_yes|apply such_no]; try exact A1;
    inversion R1 as [|? ? ? ? A2 R2|? ? ? ? A2 R2]; subst; [apply such_yes| apply such_no|apply such_yes|apply such_no]; try exact R2.
    all: try (destruct A2 as (i & (Hi & Hn) & Ht); exists i; split; [split; assumption|apply (H i Hn), Ht]).
    all: intros (i & (Hi & Hn) & Ht); apply A2; exists i; split; [split; assumption|apply (H i Hn), Ht].
  - eapply IH; [|exact H2]. intros i Hi. rewrite !in_app_iff, (H i Hi). tauto.
Qed.

Lemma read_notes_spec ps : forall ns taken s ns' s', read_notes e tostring all cs ps ns taken s = Ok (ns', s') ->
  exists nes l es, Forall2 (fun p n => note_of p = Ok n) ps nes /\
    notes_problems (FootModel.e_uri e) taken ps l /\ Forall2 made l es /\ s' = with_errors s es /\
    (forall es0, exists es1 t, FootModel.parse_footnotes e nes ns es0 taken = Ok (ns', es1, t)).
Proof.
  induction ps as [|p ps IH]; intros ns taken s ns' s'; cbn [read_notes].
  - intros [= <- <-]. exists [], [], []. rewrite with_nil. repeat split; try constructor. intros es0. cbn. eauto.
  - unfold mbind at 1, lift at 1. destruct (note_of p) as [n|] eqn:En; [|discriminate].
    unfold mbind at 1, lift at 1. destruct (FootModel.parse_footnote e n [] taken) as [[[o es1] t1]|] eqn:Ep; [|discriminate].
    unfold mbind at 1, add_errors at 1. cbn [fst snd]. intros H. apply IH in H as (nes & l & es & F & Hl & Hm & -> & Hp).
    destruct (note_reports _ _ _ _ _ _ En Ep) as [(l1 & S1 & M1) Ht].
    exists (n :: nes), (l1 ++ l), (map (about (p_xml p)) es1 ++ es). split; [constructor; assumption|]. split; [|split; [|split]].
    + constructor; [exact S1|]. eapply notes_problems_same; [|exact Hl]. exact Ht.
    + apply Forall2_app; assumption.
    + rewrite <- with_app. reflexivity.
    + intros es0. cbn [FootModel.parse_footnotes].
      destruct (FootProps.parse_footnote_spec e n [] taken) as (es2 & t2 & o2 & E2 & -> & _ & ->). rewrite Ep in E2. injection E2 as -> _ ->.
      destruct (FootProps.parse_footnote_spec e n es0 taken) as (es3 & t3 & o3 & -> & -> & _ & ->). cbn [bind]. apply Hp.
Qed.
End Notes.

(** ** Relationships *)

Section Relationships.
Variable e : FootModel.env.
Hypothesis He : FootSpec.lists_sets (FootModel.e_set e).
Variable ns : FootModel.notes.
Variable fs : FootModel.facts.

Lemma given_missing o : FootModel.given o = None <-> is_missing o.
Proof.
  unfold is_missing. destruct o as [[|c s]|]; cbn; split; auto; try discriminate. intros [|]; discriminate.
Qed.
Lemma from_words o w : In w (FootModel.e_set e (FootModel.words (match FootModel.given o with Some s => s | None => [] end))) <-> FootSpec.refers o w.
Proof.
  destruct (He (FootModel.words (match FootModel.given o with Some s => s | None => [] end))) as [_ H]. rewrite H, FootProofs.words_spec. unfold FootSpec.refers.
  destruct o as [[|c s]|]; cbn [FootModel.given]; (split; [eauto|]).
  - intros (s & [= <-] & Hw). exact Hw.
  - intros (s' & [= <-] & Hw). exact Hw.
  - intros (Hw & _ & a & b & E & _). symmetry in E. apply app_eq_nil in E as [_ E]. apply app_eq_nil in E as [E _]. contradiction.
  - intros (s' & [=] & _).
Qed.
Lemma filter_none {B} (f : B -> bool) l : filter f l = [] <-> ~ exists b, In b l /\ f b = true.
Proof.
  induction l as [|b l IH]; cbn [filter]; [split; [intros _ (b & [] & _)|reflexivity]|]. destruct (f b) eqn:Ef.
  - split; [discriminate|]. intros F. exfalso. apply F. exists b. cbn. auto.
  - rewrite IH. split; intros F (c & Hc & Hf); apply F; exists c; [destruct Hc as [<-|Hc]; [congruence|]|cbn]; auto.
Qed.
Lemma member {V} (d : list (str * V)) i : negb (dict_mem str_eqb d i) = true <-> ~ In i (map fst d).
Proof. rewrite <- FootProofs.dict_mem_in. destruct (dict_mem str_eqb d i); cbn; intuition discriminate. Qed.

Lemma adds_list {A} (x : xml) (P : Prop) code (es es' : repo A) a kw {B} (l : list B) : (l = [] <-> ~ P) -> (l <> [] -> P) ->
  match l with [] => Ok es | _ => insert es code (Some a) kw end = Ok es' -> adds x P code es es'.
Proof.
  intros H1 H2. destruct l.
  - intros [= <-]. apply adds_not, H1. reflexivity.
  - apply adds_it, H2. discriminate.
Qed.

Lemma relationship_reports x a es : FootModel.parse_relationship e ns fs (rel_of x) [] = Ok (a, es) ->
  (exists l, such (relationship_cases (FootModel.e_uri e) (map fst ns) (map fst fs) x) l /\ Forall2 made l (map (about x) es)) /\
  has_order (FootModel.e_float e) x.
Proof.
  unfold FootModel.parse_relationship. intros H.
  destruct (FootModel.parse_refs _ _ _) as [[[from to] es1]|] eqn:E1; [|discriminate]. cbn [bind] in H.
  destruct (FootModel.validate_refs _ _ _ _ _ _ _) as [es2|] eqn:E2; [|discriminate]. cbn [bind] in H.
  destruct (FootModel.parse_attributes _ _ _) as [[[[ar lr] q] es3]|] eqn:E3; [|discriminate]. cbn [bind] in H. injection H as _ <-.
  unfold FootModel.parse_refs in E1. cbn [rel_of FootModel.r_from FootModel.r_to] in E1.
  destruct (match FootModel.given (attr x (u "fromRefs")) with Some _ => _ | None => _ end) as [[tf ef]|] eqn:Ef in E1; [|discriminate]. cbn [bind] in E1.
  destruct (match FootModel.given (attr x (u "toRefs")) with Some _ => _ | None => _ end) as [[tt' et]|] eqn:Et in E1; [|discriminate]. cbn [bind] in E1.
  injection E1 as <- <- <-.
  assert (A1 : tf = match FootModel.given (attr x (u "fromRefs")) with Some s => s | None => [] end /\
    adds x (is_missing (attr x (u "fromRefs"))) "IXBRL_RELATIONSHIP_WITHOUT_FROMREFS" [] ef).
  { pose proof (given_missing (attr x (u "fromRefs"))) as G. destruct (FootModel.given (attr x (u "fromRefs"))) as [s|].
    - injection Ef as <- <-. split; [reflexivity|]. apply adds_not. rewrite <- G. discriminate.
    - destruct (insert _ _ _ _) as [l|] eqn:Ei in Ef; [|discriminate]. cbn [bind] in Ef. injection Ef as <- <-. split; [reflexivity|].
      eapply adds_it; [apply G; reflexivity|exact Ei]. }
  assert (A2 : tt' = match FootModel.given (attr x (u "toRefs")) with Some s => s | None => [] end /\
    adds x (is_missing (attr x (u "toRefs"))) "IXBRL_RELATIONSHIP_WITHOUT_TOREFS" ef et).
  { pose proof (given_missing (attr x (u "toRefs"))) as G. destruct (FootModel.given (attr x (u "toRefs"))) as [s|].
    - injection Et as <- <-. split; [reflexivity|]. apply adds_not. rewrite <- G. discriminate.
    - destruct (insert _ _ _ _) as [l|] eqn:Ei in Et; [|discriminate]. cbn [bind] in Et. injection Et as <- <-. split; [reflexivity|].
      eapply adds_it; [apply G; reflexivity|exact Ei]. }
  destruct A1 as [-> A1], A2 as [-> A2]. clear Ef Et.
  pose proof (from_words (attr x (u "fromRefs"))) as Wf. pose proof (from_words (attr x (u "toRefs"))) as Wt.
  revert E2 Wf Wt. generalize (FootModel.e_set e (FootModel.words (match FootModel.given (attr x (u "fromRefs")) with Some s => s | None => [] end))) as from.
  generalize (FootModel.e_set e (FootModel.words (match FootModel.given (attr x (u "toRefs")) with Some s => s | None => [] end))) as to.
  intros to from E2 Wf Wt. unfold FootModel.validate_refs in E2.
  destruct (if existsb (fun i => FootModel.mem i to) from then _ else _) as [v1|] eqn:V1 in E2; [|discriminate]. cbn [bind] in E2.
  destruct (match filter (fun i => negb (dict_mem str_eqb fs i)) from with [] => _ | _ => _ end) as [v2|] eqn:V2 in E2; [|discriminate]. cbn [bind] in E2.
  destruct (match filter (fun i => negb (dict_mem str_eqb fs i) && negb (dict_mem str_eqb ns i)) to with [] => _ | _ => _ end) as [v3|] eqn:V3 in E2; [|discriminate]. cbn [bind] in E2.
  unfold FootModel.parse_attributes in E3. cbn [rel_of FootModel.r_arcrole FootModel.r_linkrole FootModel.r_order] in E3.
  assert (U : forall (o : option str) d code kw (es0 es' : FootModel.erepo) t,
     match FootModel.given o with
     | Some s => if FootModel.e_uri e s then Ok (s, es0)
                 else do! es1 <- insert es0 code (Some (FootModel.ERel (rel_of x))) (kw s) ; Ok (d, es1)
     | None => Ok (d, es0)
     end = Ok (t : str, es') -> adds x (wrong_uri (FootModel.e_uri e) o) code es0 es').
  { intros o d code kw es0 es' t. destruct (FootModel.given o) as [s|] eqn:Eg.
    - apply FootProps.given_some in Eg as [-> Hs]. destruct (FootModel.e_uri e s) eqn:Eu.
      + intros [= _ <-]. apply adds_not. intros (s' & [= <-] & _ & F). congruence.
      + destruct (insert es0 code (Some (FootModel.ERel (rel_of x))) (kw s)) as [l|] eqn:Ei; [|discriminate]. cbn [bind]. intros [= _ <-]. eapply adds_it; [|exact Ei]. exists s. auto.
    - intros [= _ <-]. apply adds_not. intros (s & -> & Hs & _). destruct s; [congruence|discriminate]. }
  destruct (match FootModel.given (attr x (u "arcrole")) with Some _ => _ | None => _ end) as [[t1 w1]|] eqn:W1 in E3; [|discriminate]. cbn [bind] in E3.
  destruct (match FootModel.given (attr x (u "linkRole")) with Some _ => _ | None => _ end) as [[t2 w2]|] eqn:W2 in E3; [|discriminate]. cbn [bind] in E3.
  destruct (match FootModel.given (attr x (u "order")) with Some _ => _ | None => _ end) as [[o w3]|] eqn:W3 in E3; [|discriminate]. cbn [bind] in E3.
  destruct o as [q'|]; [|discriminate]. injection E3 as _ _ _ <-.
  assert (O : has_order (FootModel.e_float e) x /\ w3 = w2).
  { destruct (FootModel.given (attr x (u "order"))) as [s|] eqn:Eg; [|discriminate W3]. apply FootProps.given_some in Eg as [Eg Hs].
    destruct (FootModel.e_float e s) as [q0|] eqn:Eq.
    - injection W3 as _ <-. split; [|reflexivity]. exists s, q0. auto.
    - destruct (insert _ _ _ _); discriminate W3. }
  destruct O as [O ->]. split; [|exact O].
  apply (U _ _ _ (fun s => [(u "arcrole", s)])) in W1. apply (U _ _ _ (fun s => [(u "linkrole", s)])) in W2.
  assert (G : added x (relationship_cases (FootModel.e_uri e) (map fst ns) (map fst fs) x) [] w2).
  { unfold relationship_cases. cbv zeta.
    eapply added_cons; [exact A1|]. eapply added_cons; [exact A2|].
    eapply added_cons; [eapply adds_if; [|exact V1]|].
    { rewrite existsb_exists. split.
      - intros (i & Hi & Hm). apply FootProofs.mem_spec in Hm. exists i. rewrite <- Wf, <- Wt. auto.
      - intros (i & Hi & Hm). exists i. rewrite FootProofs.mem_spec, Wf, Wt. auto. }
    eapply added_cons; [eapply adds_list; [| |exact V2]|].
    { rewrite filter_none. split; intros F (i & Hi & Hm); apply F; exists i; [rewrite member, Wf; auto|apply member in Hm; rewrite <- Wf; auto]. }
    { intros F. destruct (filter _ from) as [|i l] eqn:Fl in F; [congruence|]. assert (I : In i (i :: l)) by (cbn; auto). rewrite <- Fl in I.
      apply filter_In in I as [I Hm]. apply member in Hm. exists i. rewrite <- Wf. auto. }
    eapply added_cons; [eapply adds_list; [| |exact V3]|].
    { rewrite filter_none. split.
      - intros F (i & Hi & Hm & Hn). apply F. exists i. rewrite andb_true_iff, !member, Wt. auto.
      - intros F (i & Hi & Hm). apply F. rewrite andb_true_iff, !member in Hm. exists i. rewrite <- Wt. auto. }
    { intros F. destruct (filter _ to) as [|i l] eqn:Fl in F; [congruence|]. assert (I : In i (i :: l)) by (cbn; auto). rewrite <- Fl in I.
      apply filter_In in I as [I Hm]. rewrite andb_true_iff, !member in Hm. exists i. rewrite <- Wt. auto. }
    eapply added_cons; [eapply adds_if; [|exact E2]|].
    { rewrite andb_true_iff, existsb_exists, negb_true_iff. split.
      - intros [(i & Hi & Hm) Hf]. apply FootProofs.dict_mem_in in Hm.
        assert (exists j, In j to /\ dict_mem str_eqb ns j = false) as (j & Hj & Hn).
        { clear -Hf. induction to as [|j to IH]; [discriminate|]. cbn [forallb] in Hf. destruct (dict_mem str_eqb ns j) eqn:Ej.
          - destruct (IH Hf) as (k & Hk & Hn). exists k. cbn. auto.
          - exists j. cbn. auto. }
        exists i, j. rewrite <- !Wt. repeat split; auto. rewrite <- FootProofs.dict_mem_in. congruence.
      - intros (i & j & Hi & Hm & Hj & Hn). split; [exists i; rewrite Wt, FootProofs.dict_mem_in; auto|].
        destruct (forallb _ to) eqn:Fa; [|reflexivity]. rewrite forallb_forall in Fa. exfalso. apply Hn, FootProofs.dict_mem_in, Fa, Wt, Hj. }
    eapply added_cons; [exact W1|]. eapply added_cons; [exact W2|]. apply added_nil. }
  destruct G as (l & m & H1 & -> & H2). exists l. auto.
Qed.
End Relationships.

(** ** All of it *)

Section Footnotes.
Variable e : FootModel.env.
Variable tostring : TextModel.xml -> str.
Hypothesis He : FootSpec.lists_sets (FootModel.e_set e).

Lemma read_arcs_spec ns fs xs : forall s arcs s', read_arcs e ns fs xs s = Ok (arcs, s') ->
  Forall (has_order (FootModel.e_float e)) xs /\
  (exists ls es, Forall2 (fun x => such (relationship_cases (FootModel.e_uri e) (map fst ns) (map fst fs) x)) xs ls /\
    Forall2 made (concat ls) es /\ s' = with_errors s es) /\
  ((forall x, In x xs -> FootSpec.proper e ns fs (rel_of x)) -> arcs = map (FootProofs.arc_of e) (map rel_of xs)).
Proof.
  induction xs as [|x xs IH]; intros s arcs s'; cbn [read_arcs].
  - intros [= <- <-]. split; [constructor|]. split; [|reflexivity]. exists [], []. rewrite with_nil. repeat constructor.
  - unfold mbind at 1, lift at 1. destruct (FootModel.parse_relationship e ns fs (rel_of x) []) as [[a es1]|] eqn:Er; [|discriminate].
    unfold mbind at 1, add_errors at 1. cbn [fst snd]. unfold mbind at 1.
    destruct (read_arcs _ _ _ _ _) as [[arcs1 s1]|] eqn:Ea; [|discriminate]. intros [= <- <-].
    destruct (IH _ _ _ Ea) as (Ho & (ls & es & Hl & Hm & ->) & Hp).
    destruct (relationship_reports e He ns fs x a es1 Er) as [(l & Sl & Ml) O]. split; [constructor; assumption|]. split.
    + exists (l :: ls), (map (about x) es1 ++ es). split; [constructor; assumption|]. split; [cbn [concat]; apply Forall2_app; assumption|].
      rewrite <- with_app. reflexivity.
    + intros P. cbn [map]. rewrite Hp by (intros; apply P; cbn; auto). f_equal.
      rewrite (FootProofs.parse_proper e ns fs (rel_of x) []) in Er; [|exact He|apply P; cbn; auto]. injection Er as <- _. reflexivity.
Qed.

Lemma networks_proper ns fs xs nws : (forall x, In x xs -> FootSpec.proper e ns fs (rel_of x)) ->
  FootModel.build_networks e ns fs (map (FootProofs.arc_of e) (map rel_of xs)) = Ok nws ->
  exists keys, NoDup keys /\ (forall l r, In (l, r) keys <-> exists x, In x xs /\ FootSpec.in_group l r (rel_of x)) /\
    Forall2 (fun k nw => FootSpec.is_network e ns fs (map rel_of xs) (fst k) (snd k) nw /\ FootModel.nw_linkrole nw = snd k) keys nws.
Proof.
  intros P B. assert (P' : forall r, In r (map rel_of xs) -> FootSpec.proper e ns fs r).
  { intros r Hr. apply in_map_iff in Hr as (x & <- & Hx). apply P, Hx. }
  destruct (FootProps.C44_networks_partial e ns fs (map rel_of xs) [] He P') as (nws' & keys & E & N & K & F).
  unfold FootModel.parse_relationships in E. rewrite (FootProofs.parse_arcs_proper e ns fs _ _ He P') in E. cbn [bind] in E. rewrite B in E. cbn [bind] in E.
  injection E as <-. exists keys. split; [exact N|]. split; [|exact F]. intros l r. rewrite K. split.
  - intros (y & Hy & Hg). apply in_map_iff in Hy as (x & <- & Hx). eauto.
  - intros (x & Hx & Hg). exists (rel_of x). split; [apply in_map, Hx|exact Hg].
Qed.

Lemma read_footnotes_spec fuel roots r taken fs s ns nws s' :
  read_footnotes e tostring fuel roots r taken fs s = Ok ((ns, nws), s') ->
  exists nes l ls er en ea, s_errors s' = s_errors s ++ er ++ en ++ ea /\
    Forall2 made (flat_map (reference_problems (FootModel.e_uri e) "linktype") (r_roles r ++ r_arcroles r)) er /\
    Forall2 (fun p n => note_of tostring (all_places roots) (chains_of fuel roots) p = Ok n) (note_places roots) nes /\
    notes_problems (FootModel.e_uri e) taken (note_places roots) l /\ Forall2 made l en /\
    (exists es1 t, FootModel.parse_footnotes e nes [] [] taken = Ok (ns, es1, t)) /\
    Forall (has_order (FootModel.e_float e)) (r_relationships r) /\
    Forall2 (fun x => such (relationship_cases (FootModel.e_uri e) (map fst ns) (map fst (texts_of fs)) x)) (r_relationships r) ls /\
    Forall2 made (concat ls) ea /\
    ((forall x, In x (r_relationships r) -> FootSpec.proper e ns (texts_of fs) (rel_of x)) ->
     exists keys, NoDup keys /\ (forall l r', In (l, r') keys <-> exists x, In x (r_relationships r) /\ FootSpec.in_group l r' (rel_of x)) /\
       Forall2 (fun k nw => FootSpec.is_network e ns (texts_of fs) (map rel_of (r_relationships r)) (fst k) (snd k) nw /\
         FootModel.nw_linkrole nw = snd k) keys nws).
Proof.
  unfold read_footnotes. unfold mbind at 1. destruct (does_references e r s) as (er & -> & Mr). unfold mbind at 1.
  destruct (read_notes _ _ _ _ _ _ _ _) as [[ns1 s1]|] eqn:En; [|discriminate]. unfold mbind at 1.
  destruct (read_arcs _ _ _ _ _) as [[arcs s2]|] eqn:Ea; [|discriminate]. unfold mbind at 1, lift at 1.
  destruct (FootModel.build_networks _ _ _ _) as [nws1|] eqn:Eb; [|discriminate]. intros [= <- <- <-].
  apply read_notes_spec in En as (nes & l & en & F & Hl & Mn & -> & Hp).
  destruct (read_arcs_spec _ _ _ _ _ _ Ea) as (Ho & (ls & ea & Sl & Ma & ->) & P).
  exists nes, l, ls, er, en, ea. split; [cbn [with_errors s_errors]; rewrite <- !app_assoc; reflexivity|].
  repeat (split; [first [assumption|exact (Hp [])]|]). intros Q. rewrite (P Q) in Eb. apply networks_proper; assumption.
Qed.
End Footnotes.

(** ** The identifiers taken by then *)

Lemma check_ids_taken all ps : forall errs taken,
  snd (fold_left (fun '(errs, taken) c =>
    match TextModel.ce_id c with
    | None => (errs ++ [TextModel.WithoutId (TextModel.ce_key c)], taken)
    | Some id => (errs ++ (if TextModel.smem id taken then [TextModel.DuplicateId (TextModel.ce_key c) id] else []), id :: taken)
    end) (map (celem_of all) ps) (errs, taken)) = rev (ids_of (map p_xml ps)) ++ taken.
Proof.
  induction ps as [|p ps IH]; intros errs taken; [reflexivity|]. cbn [map fold_left celem_of TextModel.ce_id].
  unfold ids_of. cbn [flat_map]. fold (ids_of (map p_xml ps)).
  destruct (attr (p_xml p) (u "id")) as [i|]; rewrite IH; cbn [app rev]; [rewrite <- app_assoc|]; reflexivity.
Qed.
Lemma continuations_taken e fuel roots taken ks tk : continuations e fuel roots taken = Some (ks, tk) ->
  tk = rev (ids_of (map p_xml (cont_places roots))) ++ taken /\ exists r, chains fuel roots [] = Some r.
Proof.
  unfold continuations. destruct (chains fuel roots taken) as [[[cs errs] t]|] eqn:E; [|discriminate]. intros [= _ <-]. split.
  - unfold chains, TextModel.create_continuation_chains in E.
    pose proof (check_ids_taken (all_places roots) (cont_places roots) [] taken) as G.
    unfold TextModel.check_continuation_ids in E. destruct (fold_left _ _ _) as [errs0 t0]. cbn [snd] in G.
    destruct (TextModel.chains_loop _ _ _ _ _ _) as [[[? ?] ?]|]; [|discriminate]. injection E as _ _ <-. exact G.
  - destruct (chains_any fuel roots taken _ E) as (r & Hr & _). eauto.
Qed.
