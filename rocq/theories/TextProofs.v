(** Proofs about the text of facts. *)
From Verif Require Import Base TextModel TextSpec.
Local Open Scope nat_scope.

(** Induction over elements. *)
Section XmlInd.
  Context (P : xml -> Prop).
  Hypothesis H : forall r t a s kids l, Forall P kids -> P (Node r t a s kids l).
  Fixpoint xml_ind' (e : xml) : P e :=
    let 'Node r t a s kids l := e in
    H r t a s kids l ((fix go (k : list xml) : Forall P k :=
      match k with [] => Forall_nil P | x :: k' => Forall_cons x (xml_ind' x) (go k') end) kids).
End XmlInd.

(** ** What one element contributes *)

Fixpoint kept (e : xml) : list token :=
  let 'Node r t a s kids l := e in
  if r then TRemark :: chars l
  else if str_eqb t (u "ix:exclude") then chars l
  else if starts_with (u "ix:") t then chars s ++ concat (map kept kids) ++ chars l
  else TStart t a :: chars s ++ concat (map kept kids) ++ [TEnd] ++ chars l.

Lemma content_chars_skip o : forall st ts, in_excluded st = true -> content st (chars o ++ ts) = content st ts.
Proof.
  destruct o as [s|]; [|reflexivity]. cbn [chars]. induction s as [|c s IH]; intros st ts H; [reflexivity|].
  cbn [map app content]. rewrite H. apply IH, H.
Qed.
Lemma content_chars o : forall st ts, in_excluded st = false -> content st (chars o ++ ts) = chars o ++ content st ts.
Proof.
  destruct o as [s|]; [|reflexivity]. cbn [chars]. induction s as [|c s IH]; intros st ts H; [reflexivity|].
  cbn [map app content]. rewrite H. cbn. f_equal. apply IH, H.
Qed.

Lemma content_skip e : forall st ts, in_excluded st = true -> content st (tokens e ++ ts) = content st ts.
Proof.
  induction e as [r t a s kids l IH] using xml_ind'. intros st ts H. cbn [tokens].
  destruct r.
  - cbn [app content]. rewrite H. apply content_chars_skip, H.
  - rewrite <- app_assoc. cbn [app content]. rewrite H.
    rewrite <- !app_assoc, content_chars_skip by reflexivity.
    assert (Hk : forall ts', content (Excluded :: st) (concat (map tokens kids) ++ ts') = content (Excluded :: st) ts').
    { induction kids as [|k kids IHk]; intros ts'; [reflexivity|]. inversion IH; subst.
      cbn [map concat]. rewrite <- app_assoc. rewrite H2 by reflexivity. apply IHk. assumption. }
    rewrite Hk. cbn [app content]. apply content_chars_skip, H.
Qed.

Lemma content_kept e : forall st ts, in_excluded st = false -> content st (tokens e ++ ts) = kept e ++ content st ts.
Proof.
  induction e as [r t a s kids l IH] using xml_ind'. intros st ts H. cbn [tokens kept].
  assert (Hk : forall st' ts', in_excluded st' = false ->
    content st' (concat (map tokens kids) ++ ts') = concat (map kept kids) ++ content st' ts').
  { clear ts. induction kids as [|k kids IHk]; intros st' ts' H'; [reflexivity|]. inversion IH as [|? ? H1 H2]; subst.
    cbn [map concat]. rewrite <- !app_assoc, H1 by exact H'. f_equal. apply IHk; assumption. }
  destruct r.
  - cbn [app content]. rewrite H. f_equal. apply content_chars, H.
  - rewrite <- app_assoc. cbn [app content]. rewrite H.
    destruct (str_eqb t (u "ix:exclude")).
    + rewrite <- !app_assoc, content_chars_skip by reflexivity.
      assert (Hs : forall ts', content (Excluded :: st) (concat (map tokens kids) ++ ts') = content (Excluded :: st) ts').
      { clear. induction kids as [|k kids IHk]; intros ts'; [reflexivity|].
        cbn [map concat]. rewrite <- app_assoc, content_skip by reflexivity. apply IHk. }
      rewrite Hs. cbn [app content]. apply content_chars, H.
    + destruct (starts_with (u "ix:") t).
      * rewrite <- !app_assoc, content_chars, Hk by reflexivity. cbn [app content]. rewrite content_chars by exact H.
        reflexivity.
      * rewrite <- !app_assoc, content_chars, Hk by reflexivity. cbn [app content]. rewrite content_chars by exact H.
        cbn [app]. rewrite <- !app_assoc. reflexivity.
Qed.

Lemma content_inside e : content [] (inside e) = chars (x_text e) ++ concat (map kept (x_kids e)).
Proof.
  destruct e as [r t a s kids l]. cbn [inside x_text x_kids]. rewrite content_chars by reflexivity. f_equal.
  induction kids as [|k kids IH]; [reflexivity|]. cbn [map concat]. rewrite content_kept by reflexivity. f_equal. exact IH.
Qed.

(** ** Growing an element *)

Lemma inside_append_text p t : forallb (fun c => negb (x_remark c)) (x_kids p) = true ->
  inside (append_text_to_parent p t) = inside p ++ chars t /\
  forallb (fun c => negb (x_remark c)) (x_kids (append_text_to_parent p t)) = true /\
  x_tail (append_text_to_parent p t) = x_tail p /\ x_tag (append_text_to_parent p t) = x_tag p.
Proof.
  intros H. destruct t as [t|]; [|cbn; rewrite app_nil_r; auto].
  destruct p as [r tg a s kids l]. cbn [append_text_to_parent x_kids] in *.
  destruct kids as [|k kids].
  - cbn. rewrite !app_nil_r. destruct s as [s|]; cbn [plus_text chars]; [rewrite map_app|]; auto.
  - set (f := fun c => set_tail c (plus_text (x_tail c) t)).
    assert (E : concat (map tokens (on_last f (k :: kids))) = concat (map tokens (k :: kids)) ++ map TChar t).
    { clear H. revert k. induction kids as [|k' kids IH]; intros k.
      - cbn [on_last map concat]. rewrite !app_nil_r. destruct k as [r' t' a' s' k' l']. cbn [f set_tail x_tail tokens].
        rewrite <- !app_assoc. f_equal. destruct l' as [l'|]; cbn [plus_text chars]; [apply map_app|reflexivity].
      - change (on_last f (k :: k' :: kids)) with (k :: on_last f (k' :: kids)).
        change (map tokens (k :: on_last f (k' :: kids))) with (tokens k :: map tokens (on_last f (k' :: kids))).
        change (concat (tokens k :: map tokens (on_last f (k' :: kids)))) with
          (tokens k ++ concat (map tokens (on_last f (k' :: kids)))). rewrite IH.
        cbn [map concat]. rewrite <- !app_assoc. reflexivity. }
    repeat split.
    + cbn [inside set_kids]. rewrite E, app_assoc. reflexivity.
    + cbn [set_kids x_kids]. clear E. revert k H. induction kids as [|k' kids IH]; intros k H.
      * cbn in *. destruct k. exact H.
      * change (on_last f (k :: k' :: kids)) with (k :: on_last f (k' :: kids)).
        cbn [forallb] in *. apply andb_prop in H as [H1 H2]. rewrite H1. exact (IH k' H2).
Qed.

Lemma inside_append_kids p l : inside (append_kids p l) = inside p ++ concat (map tokens l).
Proof.
  destruct p as [r t a s kids tl]. cbn [append_kids set_kids inside x_kids]. rewrite map_app, concat_app, app_assoc. reflexivity.
Qed.
Definition clean (e : xml) : Prop := forallb (fun c => negb (x_remark c)) (x_kids e) = true.
Lemma clean_append_kids p l : clean p -> forallb (fun c => negb (x_remark c)) l = true -> clean (append_kids p l).
Proof. unfold clean. destruct p. cbn. intros H1 H2. rewrite forallb_app, H1, H2. reflexivity. Qed.

(** ** Extraction *)

Lemma has_remark_app a b : has_remark (a ++ b) = has_remark a || has_remark b.
Proof. apply existsb_app. Qed.
Lemma has_remark_chars o : has_remark (chars o) = false.
Proof. destruct o as [s|]; [|reflexivity]. cbn. induction s; [reflexivity|exact IHs]. Qed.

Definition go_extract :=
  (fix go (kids : list xml) (acc : xml) : res xml :=
     match kids with
     | [] => Ok acc
     | child :: rest =>
         if x_remark child then Raise TypeError
         else if str_eqb (x_tag child) (u "ix:exclude") then go rest (append_text_to_parent acc (x_tail child))
         else
           do! rc <- extract_relevant_content_per_element child ;
           if starts_with (u "ix:") (x_tag child) then
             go rest (append_text_to_parent (append_kids (append_text_to_parent acc (x_text rc)) (x_kids rc))
                                            (x_tail rc))
           else go rest (append_kids acc [rc])
     end).

Lemma extract_eq e : extract_relevant_content_per_element e = go_extract (x_kids e) (clone_element_without_children e).
Proof. destruct e. reflexivity. Qed.

Definition x_attrs (e : xml) := let 'Node _ _ a _ _ _ := e in a.
Definition same (x y : xml) : Prop :=
  x_remark y = x_remark x /\ x_tag y = x_tag x /\ x_attrs y = x_attrs x /\ x_tail y = x_tail x.

(** The outcome for one element. *)
Definition extracted (e : xml) (r : res xml) : Prop :=
  if has_remark (concat (map kept (x_kids e))) then r = Raise TypeError
  else exists n, r = Ok n /\ inside n = chars (x_text e) ++ concat (map kept (x_kids e)) /\ clean n /\
       same e n.

Lemma same_append_text acc t : same acc (append_text_to_parent acc t).
Proof. destruct acc as [a b c s k l], t as [t|]; unfold same; cbn; [|auto]. destruct k; cbn; auto. Qed.

Lemma same_append_kids p l : same p (append_kids p l).
Proof. destruct p. unfold same. cbn. auto. Qed.

Lemma go_extract_spec kids : Forall (fun e => extracted e (extract_relevant_content_per_element e)) kids ->
  forall acc, clean acc ->
  if has_remark (concat (map kept kids)) then go_extract kids acc = Raise TypeError
  else exists n, go_extract kids acc = Ok n /\ inside n = inside acc ++ concat (map kept kids) /\ clean n /\
       same acc n.
Proof.
  induction 1 as [|k kids Hk HF IH]; intros acc Hc.
  - cbn. exists acc. rewrite app_nil_r. unfold same. auto 10.
  - cbn [go_extract map concat]. fold go_extract. rewrite has_remark_app.
    destruct k as [r t a s kk l]. cbn [x_remark x_tag x_tail kept] in *. destruct r.
    { reflexivity. }
    assert (Hstep : forall acc' out, clean acc' -> inside acc' = inside acc ++ out ->
      same acc acc' ->
      if has_remark (concat (map kept kids)) then go_extract kids acc' = Raise TypeError
      else exists n, go_extract kids acc' = Ok n /\ inside n = inside acc ++ out ++ concat (map kept kids) /\ clean n /\
        same acc n).
    { intros acc' out Hc' Hi Hs. specialize (IH acc' Hc'). destruct (has_remark (concat (map kept kids))); [exact IH|].
      destruct IH as (n & E & Hin & Hcn & Hsn). exists n. split; [exact E|]. split; [rewrite Hin, Hi, <- app_assoc; reflexivity|].
      split; [exact Hcn|]. unfold same in *. intuition congruence. }
    destruct (str_eqb t (u "ix:exclude")) eqn:Ex.
    { rewrite has_remark_chars, orb_false_l. destruct (inside_append_text acc l Hc) as (Hi & Hcl & _).
      apply Hstep; [exact Hcl|exact Hi|apply same_append_text]. }
    unfold extracted in Hk. cbn [x_kids x_text x_tail] in Hk.
    destruct (starts_with (u "ix:") t) eqn:Ei.
    + rewrite !has_remark_app, !has_remark_chars, orb_false_r, orb_false_l.
      destruct (has_remark (concat (map kept kk))); [rewrite Hk; reflexivity|]. cbn [orb].
      destruct Hk as (n & -> & Hin & Hcn & (_ & _ & _ & Htl)). cbn [bind].
      cbn [x_tail] in Htl.
      destruct (inside_append_text acc (x_text n) Hc) as (Hi1 & Hc1 & _).
      pose proof (clean_append_kids _ _ Hc1 Hcn) as Hc2.
      destruct (inside_append_text (append_kids (append_text_to_parent acc (x_text n)) (x_kids n)) (x_tail n) Hc2) as (Hi3 & Hc3 & _).
      apply Hstep; [exact Hc3| |].
      * rewrite Hi3, inside_append_kids, Hi1, Htl. rewrite <- !app_assoc. f_equal.
        rewrite (app_assoc (chars s)), <- Hin. destruct n as [r' t' a' s' k' l']. cbn [inside x_text x_kids].
        rewrite <- !app_assoc. reflexivity.
      * pose proof (same_append_text acc (x_text n)) as S1.
        pose proof (same_append_text (append_kids (append_text_to_parent acc (x_text n)) (x_kids n)) (x_tail n)) as S2.
        pose proof (same_append_kids (append_text_to_parent acc (x_text n)) (x_kids n)) as S3.
        unfold same in *. intuition congruence.
    + change (has_remark (TStart t a :: chars s ++ concat (map kept kk) ++ [TEnd] ++ chars l)) with
        (has_remark (chars s ++ concat (map kept kk) ++ [TEnd] ++ chars l)).
      rewrite !has_remark_app, !has_remark_chars, orb_false_l. cbn [has_remark existsb orb]. rewrite orb_false_r.
      destruct (has_remark (concat (map kept kk))); [rewrite Hk; reflexivity|]. cbn [orb].
      destruct Hk as (n & -> & Hin & Hcn & Hr & Ht & Ha & Htl). cbn [bind].
      assert (Hn : x_remark n = false) by exact Hr.
      apply Hstep.
      * apply clean_append_kids; [exact Hc|]. cbn. rewrite Hn. reflexivity.
      * rewrite inside_append_kids. f_equal. cbn [map concat]. rewrite app_nil_r.
        destruct n as [r' t' a' s' k' l']. cbn in Htl, Hin, Hr, Ht, Ha. subst.
        cbn [tokens]. cbn [app]. rewrite <- !app_assoc. f_equal.
        rewrite (app_assoc (chars s')), Hin, <- !app_assoc. reflexivity.
      * apply same_append_kids.
Qed.

Lemma extract_spec e : extracted e (extract_relevant_content_per_element e).
Proof.
  induction e as [r t a s kids l IH] using xml_ind'. rewrite extract_eq. cbn [x_kids].
  assert (Hc : clean (clone_element_without_children (Node r t a s kids l))) by reflexivity.
  pose proof (go_extract_spec kids IH _ Hc) as H. unfold extracted. cbn [x_kids x_text].
  destruct (has_remark (concat (map kept kids))); [exact H|].
  destruct H as (n & E & Hi & Hcn & Hs). exists n. split; [exact E|].
  cbn [clone_element_without_children set_kids inside map concat] in Hi. rewrite app_nil_r in Hi.
  split; [exact Hi|]. split; [exact Hcn|]. exact Hs.
Qed.

(** ** Merging *)

Lemma merge_fold els : forall acc, clean acc -> Forall clean els ->
  let m := fold_left (fun m e => append_kids (append_text_to_parent m (x_text e)) (x_kids e)) els acc in
  inside m = inside acc ++ concat (map inside els) /\ clean m.
Proof.
  induction els as [|e els IH]; intros acc Hc HF; cbn [fold_left map concat]; [rewrite app_nil_r; auto|].
  inversion HF as [|? ? He HF']; subst.
  destruct (inside_append_text acc (x_text e) Hc) as (Hi & Hc1 & _).
  pose proof (clean_append_kids _ _ Hc1 He) as Hc2.
  destruct (IH _ Hc2 HF') as [E C]. split; [|exact C]. rewrite E, inside_append_kids, Hi, <- !app_assoc. f_equal.
  destruct e. cbn [inside x_text x_kids]. rewrite <- app_assoc. reflexivity.
Qed.

Lemma extract_map chain :
  if existsb (fun e => has_remark (concat (map kept (x_kids e)))) chain
  then map_res extract_relevant_content_per_element chain = Raise TypeError
  else exists ns, map_res extract_relevant_content_per_element chain = Ok ns /\ Forall clean ns /\
       concat (map inside ns) = fact_content chain /\ length ns = length chain.
Proof.
  induction chain as [|e chain IH]; [cbn; exists []; repeat split; constructor|].
  cbn [existsb map_res]. pose proof (extract_spec e) as He. unfold extracted in He.
  destruct (has_remark (concat (map kept (x_kids e)))); [rewrite He; reflexivity|]. cbn [orb].
  destruct He as (n & -> & Hi & Hc & _). cbn [bind].
  destruct (existsb _ chain); [rewrite IH; reflexivity|]. destruct IH as (ns & -> & HF & E & Hl). cbn [bind].
  exists (n :: ns). split; [reflexivity|]. split; [constructor; assumption|]. split; [|cbn; congruence].
  unfold fact_content in *. cbn [map concat]. rewrite Hi, E, content_inside. reflexivity.
Qed.

Lemma fact_content_remark chain :
  has_remark (fact_content chain) = existsb (fun e => has_remark (concat (map kept (x_kids e)))) chain.
Proof.
  unfold fact_content. induction chain as [|e chain IH]; [reflexivity|]. cbn [map concat existsb].
  rewrite has_remark_app, IH, content_inside, has_remark_app, has_remark_chars. reflexivity.
Qed.

Lemma chain_content fact chain :
  if has_remark (fact_content (fact :: chain))
  then extract_relevant_content_from_continuation_chain (fact :: chain) = Raise TypeError
  else exists n, extract_relevant_content_from_continuation_chain (fact :: chain) = Ok n /\
       inside n = fact_content (fact :: chain) /\ clean n.
Proof.
  rewrite fact_content_remark. pose proof (extract_map (fact :: chain)) as H.
  unfold extract_relevant_content_from_continuation_chain.
  destruct (existsb _ (fact :: chain)); [rewrite H; reflexivity|].
  destruct H as (ns & -> & HF & E & Hl). cbn [bind]. destruct ns as [|n0 ns]; [discriminate|].
  eexists. split; [reflexivity|].
  set (acc := set_text (clone_element_without_children n0) None).
  assert (Ha : clean acc /\ inside acc = []) by (unfold acc, clean; destruct n0; cbn; auto).
  destruct Ha as [Hca Hia]. destruct (merge_fold (n0 :: ns) acc Hca HF) as [Em Cm].
  split; [|exact Cm]. rewrite Em, Hia, E. reflexivity.
Qed.

(** ** Text *)

Lemma text_of_app a b : text_of (a ++ b) = text_of a ++ text_of b.
Proof. unfold text_of. rewrite map_app, concat_app. reflexivity. Qed.
Lemma text_of_chars o : text_of (chars o) = match o with Some s => s | None => [] end.
Proof. destruct o as [s|]; [|reflexivity]. cbn. induction s as [|c s IH]; [reflexivity|]. cbn. f_equal. exact IH. Qed.

(** Extracted content has no remarks at any depth. *)
Lemma text_of_inside e : has_remark (inside e) = false -> extract_text_content e = text_of (inside e).
Proof.
  induction e as [r t a s kids l IH] using xml_ind'. cbn [inside extract_text_content]. intros H.
  rewrite has_remark_app, has_remark_chars, orb_false_l in H.
  rewrite text_of_app, text_of_chars. f_equal.
  induction kids as [|k kids IHk]; [reflexivity|]. inversion IH as [|? ? H1 H2]; subst.
  cbn [map concat] in *. rewrite has_remark_app in H. apply orb_false_elim in H as [Ha Hb].
  rewrite text_of_app, IHk by assumption. f_equal.
  destruct k as [r' t' a' s' k' l']. cbn [tokens x_tail] in *. rewrite has_remark_app in Ha.
  apply orb_false_elim in Ha as [Ha _]. destruct r'; [discriminate|].
  rewrite text_of_app, text_of_chars. f_equal.
  rewrite H1.
  - cbn [inside]. change (text_of (TStart t' a' :: chars s' ++ concat (map tokens k') ++ [TEnd])) with
      (text_of (chars s' ++ concat (map tokens k') ++ [TEnd])).
    rewrite !text_of_app. cbn. rewrite app_nil_r. reflexivity.
  - cbn [inside]. change (has_remark (chars s' ++ concat (map tokens k') ++ [TEnd]) = false) in Ha.
    rewrite !has_remark_app in *. apply orb_false_elim in Ha as [Ha1 Ha2]. apply orb_false_elim in Ha2 as [Ha2 _].
    rewrite Ha1, Ha2. reflexivity.
Qed.

(** ** Escaping *)

Definition esc1 (c : N) : str :=
  match find (fun e => N.eqb (snd e) c) entities with Some (p, _) => p | None => [c] end.

Lemma replace1_app c r a b : replace1 c r (a ++ b) = replace1 c r a ++ replace1 c r b.
Proof. unfold replace1. rewrite map_app, concat_app. reflexivity. Qed.
Lemma convert_app a b :
  convert_escaped_characters (a ++ b) = convert_escaped_characters a ++ convert_escaped_characters b.
Proof.
  unfold convert_escaped_characters. generalize snippets_to_replace. intros l. revert a b.
  induction l as [|p l IH]; intros a b; [reflexivity|]. cbn [fold_left]. rewrite replace1_app. apply IH.
Qed.
Lemma convert_one c : convert_escaped_characters [c] = esc1 c.
Proof.
  unfold convert_escaped_characters, esc1. cbn [snippets_to_replace fold_left fst snd].
  cbn [entities find snd fst].
  destruct (N.eqb_spec (ch "&") c) as [<-|H1]; [vm_compute; reflexivity|].
  destruct (N.eqb_spec (ch "<") c) as [<-|H2]; [vm_compute; reflexivity|].
  destruct (N.eqb_spec (ch ">") c) as [<-|H3]; [vm_compute; reflexivity|].
  destruct (N.eqb_spec 34%N c) as [<-|H4]; [vm_compute; reflexivity|].
  destruct (N.eqb_spec (ch "'") c) as [<-|H5]; [vm_compute; reflexivity|].
  assert (H : forall k r, k <> c -> replace1 k r [c] = [c]).
  { intros k r Hk. unfold replace1. cbn. destruct (N.eqb_spec c k); [congruence|reflexivity]. }
  rewrite !H by assumption. reflexivity.
Qed.
Lemma convert_map s : convert_escaped_characters s = concat (map esc1 s).
Proof.
  induction s as [|c s IH]; [reflexivity|]. change (c :: s) with ([c] ++ s). rewrite convert_app, convert_one, IH. reflexivity.
Qed.

Lemma esc1_cases c : (exists p, In (p, c) entities /\ esc1 c = p) \/ (~ In c (map snd entities) /\ esc1 c = [c]).
Proof.
  unfold esc1. destruct (find (fun e => N.eqb (snd e) c) entities) as [[p x]|] eqn:E.
  - left. apply find_some in E as [Hi E]. cbn in E. apply N.eqb_eq in E. subst x. eauto.
  - right. split; [|reflexivity]. intros H. apply in_map_iff in H as ([p x] & Hx & Hi). cbn in Hx. subst x.
    apply (find_none _ _ E) in Hi. cbn in Hi. rewrite N.eqb_refl in Hi. discriminate.
Qed.

Lemma convert_escaped_ok s : escaped (convert_escaped_characters s).
Proof.
  rewrite convert_map. induction s as [|c s IH]; [constructor|]. cbn [map concat].
  destruct (esc1_cases c) as [(p & Hi & ->)|(Hn & ->)]; [eapply esc_entity; eauto|apply esc_char; assumption].
Qed.

Lemma unescape_entity p x s : In (p, x) entities -> unescape 0 (p ++ s) = x :: unescape 0 s.
Proof.
  intros H. cbn [In entities] in H. repeat destruct H as [H|H]; try contradiction;
    injection H as <- <-; reflexivity.
Qed.
Lemma unescape_char c s : ~ In c (map snd entities) -> unescape 0 (c :: s) = c :: unescape 0 s.
Proof.
  intros H. cbn [unescape]. destruct (find (fun e => starts_with (fst e) (c :: s)) entities) as [[p x]|] eqn:E; [|reflexivity].
  exfalso. apply find_some in E as [Hi E]. apply H. left.
  assert (Hall : forallb (fun e => match fst e with c :: _ => N.eqb c (ch "&") | [] => false end) entities = true) by reflexivity.
  rewrite forallb_forall in Hall. apply Hall in Hi. cbn [fst] in *. destruct p as [|c' p]; [discriminate|].
  cbn in E. apply andb_prop in E as [E _]. apply N.eqb_eq in E, Hi.
  transitivity c'; [symmetry; exact Hi|exact E].
Qed.
Lemma unescape_convert s : unescape 0 (convert_escaped_characters s) = s.
Proof.
  rewrite convert_map. induction s as [|c s IH]; [reflexivity|]. cbn [map concat].
  destruct (esc1_cases c) as [(p & Hi & ->)|(Hn & ->)].
  - rewrite (unescape_entity p c) by exact Hi. f_equal. exact IH.
  - cbn [app]. rewrite unescape_char by exact Hn. f_equal. exact IH.
Qed.

Lemma escaped_no_raw s : escaped s -> forall c, In c s -> c <> ch "<" /\ c <> ch ">" /\ c <> 34%N /\ c <> ch "'".
Proof.
  induction 1 as [|p x s Hi HE IH|d s Hn HE IH]; intros c Hc; [destruct Hc| |].
  - apply in_app_or in Hc as [Hc|Hc]; [|auto].
    assert (Hall : forallb (fun e => forallb (fun c => negb (existsb (N.eqb c) [ch "<"; ch ">"; 34%N; ch "'"])) (fst e)) entities = true) by reflexivity.
    rewrite forallb_forall in Hall. apply Hall in Hi. cbn [fst] in Hi. rewrite forallb_forall in Hi. apply Hi in Hc.
    apply negb_true_iff in Hc. cbn [existsb] in Hc.
    repeat match goal with H : _ || _ = false |- _ => apply orb_false_elim in H as [? ?] end.
    rewrite !N.eqb_neq in *. auto.
  - destruct Hc as [<-|Hc]; [|auto]. cbn [map snd entities In] in Hn. intuition.
Qed.

(** ** Chains *)

Lemma smem_in s l : smem s l = true <-> In s l.
Proof.
  unfold smem. rewrite existsb_exists. split.
  - intros (x & Hx & E). apply str_eqb_eq in E. subst. exact Hx.
  - intros H. exists s. split; [exact H|apply str_eqb_refl].
Qed.

Lemma index_step conts : forall d,
  (forall id, dict_get str_eqb (fold_left (fun d e => match ce_id e with Some id => dict_set str_eqb d id e | None => d end) conts d) id
   = match target conts id with Some e => Some e | None => dict_get str_eqb d id end).
Proof.
  unfold target. induction conts as [|e conts IH] using rev_ind; intros d id; [reflexivity|].
  rewrite fold_left_app, rev_app_distr. cbn [fold_left rev app find].
  destruct (ce_id e) as [i|] eqn:Ei; cbn [opt_eqb].
  - destruct (str_eqb_spec i id) as [->|Hn].
    + rewrite (dict_get_set_same str_eqb str_eqb_spec). reflexivity.
    + rewrite (dict_get_set_other str_eqb str_eqb_spec) by exact Hn. apply IH.
  - apply IH.
Qed.
Lemma index_get conts id : dict_get str_eqb (continuation_index conts) id = target conts id.
Proof. unfold continuation_index. rewrite index_step. destruct (target conts id); reflexivity. Qed.

Lemma target_id conts id c : target conts id = Some c -> ce_id c = Some id /\ In c conts.
Proof.
  unfold target. intros H. apply find_some in H as [Hi H]. split; [|apply in_rev; exact Hi].
  destruct (opt_eqb_spec str_eqb str_eqb_spec (ce_id c) (Some id)); [assumption|discriminate].
Qed.
Lemma target_none conts id : target conts id = None <-> ~ exists e, In e conts /\ ce_id e = Some id.
Proof.
  unfold target. split.
  - intros H (e & He & Hid). apply in_rev in He. apply (find_none _ _ H) in He. rewrite Hid in He. cbn in He.
    rewrite str_eqb_refl in He. discriminate.
  - intros H. destruct (find _ _) as [e|] eqn:E; [|reflexivity]. exfalso. apply H. apply find_some in E as [Hi E].
    exists e. split; [apply in_rev; exact Hi|].
    destruct (opt_eqb_spec str_eqb str_eqb_spec (ce_id e) (Some id)); [assumption|discriminate].
Qed.

(** The references met: those that are used, in order. *)
Fixpoint ids_of (conts : list celem) (o : option str) (chain : list celem) : list str :=
  match o, chain with
  | Some id, c :: chain => id :: ids_of conts (ce_cont c) chain
  | _, _ => []
  end.

(** Errors of one chain, given what was used before. *)
Fixpoint reused_errs (k : nat) (used : list str) (ids : list str) : list cerr :=
  match ids with
  | [] => []
  | id :: ids => (if smem id used then [Reused k id] else []) ++ reused_errs k (id :: used) ids
  end.

Definition dangling_ids (d : option str) : list str := match d with Some i => [i] | None => [] end.

Lemma chain_loop_follows conts e : forall o chain d, follows conts o chain d ->
  forall fuel c0 used errs, length chain < fuel ->
  chain_loop fuel (continuation_index conts) e o c0 used errs =
  Some (c0 ++ chain, rev (ids_of conts o chain) ++ used,
        errs ++ reused_errs (ce_key e) used (ids_of conts o chain ++ dangling_ids d) ++
        match d with Some i => [InvalidId (ce_key e) i] | None => [] end).
Proof.
  induction 1 as [|id Ht|id c chain d Ht Hf IH]; intros fuel c0 used errs Hl; (destruct fuel as [|fuel]; [cbn in Hl; lia|]).
  - cbn. rewrite !app_nil_r. reflexivity.
  - cbn [chain_loop]. rewrite index_get, Ht. cbn [ids_of rev app dangling_ids reused_errs].
    rewrite !app_nil_r, <- app_assoc. reflexivity.
  - cbn [chain_loop]. rewrite index_get, Ht. cbn [length] in Hl. rewrite IH by lia.
    cbn [ids_of rev app reused_errs]. rewrite <- !app_assoc. reflexivity.
Qed.

(** A run that ends describes the chain. *)
Lemma chain_loop_ends conts e : forall fuel o c0 used errs r,
  chain_loop fuel (continuation_index conts) e o c0 used errs = Some r ->
  exists chain d, follows conts o chain d /\ length chain <= fuel /\ fst (fst r) = c0 ++ chain.
Proof.
  induction fuel as [|fuel IH]; intros o c0 used errs r; (destruct o as [id|]; cbn [chain_loop]; intros H;
    [|injection H as <-; exists [], None; rewrite app_nil_r; repeat split; [constructor|cbn; lia]]).
  - discriminate.
  - rewrite index_get in H. destruct (target conts id) as [c|] eqn:Et.
    + apply IH in H as (chain & d & Hf & Hl & ->). exists (c :: chain), d. rewrite <- app_assoc.
      split; [econstructor; eauto|]. split; [cbn; lia|reflexivity].
    + injection H as <-. exists [], (Some id). rewrite app_nil_r. repeat split; [constructor; exact Et|cbn; lia].
Qed.

Lemma follows_unique conts o chain d : follows conts o chain d -> forall chain' d', follows conts o chain' d' ->
  chain' = chain /\ d' = d.
Proof.
  induction 1 as [|id Ht|id c chain d Ht Hf IH]; intros chain' d' H'; inversion H' as [|? Ht'|? c' ? ? Ht' Hf']; subst; try congruence; auto.
  assert (c' = c) as -> by congruence. destruct (IH _ _ Hf') as [-> ->]. auto.
Qed.

(** A chain never visits an element twice, so it is no longer than the list of continuations. *)
Lemma follows_suffix conts o chain d : follows conts o chain d -> forall c1 c c2, chain = c1 ++ c :: c2 ->
  follows conts (ce_cont c) c2 d.
Proof.
  induction 1 as [|id Ht|id c chain d Ht Hf IH]; intros c1 x c2 E; try (destruct c1; discriminate).
  destruct c1 as [|y c1].
  - injection E as -> ->. exact Hf.
  - injection E as -> E. eapply IH, E.
Qed.
Lemma follows_nodup conts o chain d : follows conts o chain d -> NoDup chain.
Proof.
  induction 1 as [|id Ht|id c chain d Ht Hf IH]; constructor; auto.
  intros Hin. apply in_split in Hin as (c1 & c2 & E).
  pose proof (follows_suffix _ _ _ _ Hf _ _ _ E) as Hf2.
  destruct (follows_unique _ _ _ _ Hf _ _ Hf2) as [E' _]. apply (f_equal (@length _)) in E'. rewrite E, app_length in E'.
  cbn in E'. lia.
Qed.
Lemma follows_in conts o chain d : follows conts o chain d -> incl chain conts.
Proof.
  induction 1 as [|id Ht|id c chain d Ht Hf IH]; intros x Hx; [destruct Hx|destruct Hx|].
  destruct Hx as [<-|Hx]; [apply (target_id conts id), Ht|auto].
Qed.
Lemma follows_length conts o chain d : follows conts o chain d -> length chain <= length conts.
Proof. intros H. apply NoDup_incl_length; [eapply follows_nodup|eapply follows_in]; eauto. Qed.

(** ** All the chains *)

Definition chain_ok (conts : list celem) (p : celem * list celem) : Prop :=
  exists d, follows conts (ce_cont (fst p)) (snd p) d.

Lemma chains_loop_spec conts : forall els fuel cs used errs,
  (forall e, In e els -> exists chain d, follows conts (ce_cont e) chain d) -> length conts < fuel ->
  exists cs' used' errs',
    chains_loop fuel (continuation_index conts) els cs used errs = Some (cs ++ cs', used' ++ used, errs ++ errs') /\
    Forall2 (fun e p => fst p = e /\ chain_ok conts p) els cs' /\
    (forall id, In id used' <-> exists p c, In p cs' /\ In c (snd p) /\ ce_id c = Some id) /\
    (forall k id, In (InvalidId k id) errs' <->
       exists e chain, In e els /\ ce_key e = k /\ follows conts (ce_cont e) chain (Some id)) /\
    (forall x, In x errs' -> match x with InvalidId _ _ | Reused _ _ => True | _ => False end).
Proof.
  induction els as [|e els IH]; intros fuel cs used errs Hall Hf.
  - exists [], [], []. cbn [chains_loop]. rewrite !app_nil_r. split; [reflexivity|]. split; [constructor|].
    split; [|split; [|intros x []]].
    + intros id. split; [intros []|intros (p & c & [] & _)].
    + intros k id. split; [intros []|intros (e & chain & [] & _)].
  - destruct (Hall e (or_introl eq_refl)) as (chain & d & Hfo).
    pose proof (follows_length _ _ _ _ Hfo) as Hlen.
    cbn [chains_loop]. rewrite (chain_loop_follows conts e _ chain d Hfo) by lia. cbn [app].
    set (ids := ids_of conts (ce_cont e) chain).
    set (er := reused_errs (ce_key e) used (ids ++ dangling_ids d) ++ match d with Some i => [InvalidId (ce_key e) i] | None => [] end).
    destruct (IH fuel (cs ++ [(e, chain)]) (rev ids ++ used) (errs ++ er)) as (cs' & used' & errs' & E & HF & Hu & Hi & Hx);
      [intros; apply Hall; right; assumption|exact Hf|].
    exists ((e, chain) :: cs'), (used' ++ rev ids), (er ++ errs').
    split; [rewrite E, <- !app_assoc; reflexivity|].
    split; [constructor; [split; [reflexivity|exists d; exact Hfo]|exact HF]|].
    assert (Hids : forall id, In id ids <-> exists c, In c chain /\ ce_id c = Some id).
    { unfold ids. clear -Hfo. induction Hfo as [|i Ht|i c chain d Ht Hf IH]; intros id.
      - split; [intros []|intros (c & [] & _)].
      - split; [intros []|intros (c & [] & _)].
      - cbn [ids_of In]. rewrite IH. destruct (target_id _ _ _ Ht) as [Hid _]. split.
        + intros [<-|(c' & Hc & Hi)]; [exists c; auto|exists c'; auto].
        + intros (c' & [<-|Hc] & Hi); [left; congruence|right; eauto]. }
    split; [|split].
    + intros id. rewrite in_app_iff, <- in_rev, Hu, Hids. split.
      * intros [(p & c & Hp & Hc & Hid)|(c & Hc & Hid)]; [exists p, c; cbn; auto|exists (e, chain), c; cbn; auto].
      * intros (p & c & [<-|Hp] & Hc & Hid); [right; eauto|left; eauto].
    + assert (Hr : forall ids used k i, ~ In (InvalidId k i) (reused_errs (ce_key e) used ids)).
      { clear. induction ids as [|x ids IH]; intros used k i; cbn [reused_errs]; [intros []|].
        rewrite in_app_iff. intros [H|H]; [destruct (smem x used); [destruct H as [H|[]]; discriminate|destruct H]|].
        exact (IH _ _ _ H). }
      intros k id. unfold er. rewrite !in_app_iff, Hi. split.
      * intros [[H|H]|(e' & ch' & H)].
        -- destruct (Hr _ _ _ _ H).
        -- destruct d as [i|]; [|destruct H]. destruct H as [H|[]]. injection H as <- <-.
           exists e, chain. cbn. auto.
        -- exists e', ch'. cbn. tauto.
      * intros (e' & ch' & [<-|He] & Hk & Hfo').
        -- destruct (follows_unique _ _ _ _ Hfo _ _ Hfo') as [-> <-]. subst k. left. right. left. reflexivity.
        -- right. eauto.
    + intros x Hxi. apply in_app_or in Hxi as [Hxi|Hxi]; [|exact (Hx _ Hxi)].
      unfold er in Hxi. apply in_app_or in Hxi as [Hxi|Hxi].
      * revert Hxi. generalize (ids ++ dangling_ids d) used. clear. induction l as [|i l IH]; intros used; cbn [reused_errs]; [intros []|].
        rewrite in_app_iff. intros [H|H]; [destruct (smem i used); [destruct H as [<-|[]]; exact I|destruct H]|].
        exact (IH _ H).
      * destruct d; [|destruct Hxi]. destruct Hxi as [<-|[]]. exact I.
Qed.

(** ** Reuse *)

Lemma follows_target conts o chain d c id : follows conts o chain d -> In c chain -> ce_id c = Some id ->
  target conts id = Some c.
Proof.
  induction 1 as [|i Ht|i x chain d Ht Hf IH]; intros Hc Hid; [destruct Hc|destruct Hc|].
  destruct Hc as [<-|Hc]; [|auto]. destruct (target_id _ _ _ Ht) as [Hx _]. congruence.
Qed.
Lemma ids_of_in conts o chain d id : follows conts o chain d ->
  (In id (ids_of conts o chain) <-> exists c, In c chain /\ ce_id c = Some id).
Proof.
  intros Hfo. revert id. induction Hfo as [|i Ht|i c chain d Ht Hf IH]; intros id.
  - split; [intros []|intros (c & [] & _)].
  - split; [intros []|intros (c & [] & _)].
  - cbn [ids_of In]. rewrite IH. destruct (target_id _ _ _ Ht) as [Hid _]. split.
    + intros [<-|(c' & Hc & Hi)]; [exists c; cbn; auto|exists c'; cbn; auto].
    + intros (c' & [<-|Hc] & Hi); [left; congruence|right; eauto].
Qed.
Lemma ids_of_nodup conts o chain d : follows conts o chain d -> NoDup (ids_of conts o chain).
Proof.
  intros Hfo. pose proof (follows_nodup _ _ _ _ Hfo) as Hn. revert Hn.
  induction Hfo as [|i Ht|i c chain d Ht Hf IH]; intros Hn; [constructor|constructor|].
  inversion Hn as [|? ? H1 H2]; subst. cbn [ids_of]. constructor; [|auto].
  rewrite (ids_of_in _ _ _ _ _ Hf). intros (c' & Hc & Hid). apply H1.
  pose proof (follows_target _ _ _ _ _ _ Hf Hc Hid). assert (c' = c) as <- by congruence. exact Hc.
Qed.

Lemma reused_in k0 k id : forall ids used, NoDup ids ->
  (In (Reused k id) (reused_errs k0 used ids) <-> k = k0 /\ In id ids /\ In id used).
Proof.
  induction ids as [|i ids IH]; intros used Hn; cbn [reused_errs]; [cbn; tauto|].
  inversion Hn as [|? ? H1 H2]; subst. rewrite in_app_iff, (IH _ H2). cbn [In]. split.
  - intros [H|(-> & Hi & [<-|Hu])]; [|contradiction|auto].
    destruct (smem i used) eqn:E; [|destruct H]. destruct H as [H|[]]. injection H as <- <-.
    apply smem_in in E. auto.
  - intros (-> & [->|Hi] & Hu); [left|right; auto]. apply smem_in in Hu. rewrite Hu. left. reflexivity.
Qed.

Lemma chains_reused conts : forall els fuel cs used errs r,
  chains_loop fuel (continuation_index conts) els cs used errs = Some r ->
  (forall id, In id used -> target conts id <> None) ->
  forall k id, In (Reused k id) (snd r) <->
    In (Reused k id) errs \/
    exists pre e post c, els = pre ++ e :: post /\ ce_key e = k /\ on_chain conts e c /\ ce_id c = Some id /\
      (In id used \/ exists e', In e' pre /\ on_chain conts e' c).
Proof.
  induction els as [|e els IH]; intros fuel cs used errs r Hr Hused k id.
  - injection Hr as <-. cbn [snd]. split; [auto|]. intros [H|(pre & ? & ? & ? & E & _)]; [exact H|destruct pre; discriminate].
  - cbn [chains_loop] in Hr. destruct (chain_loop fuel _ e (ce_cont e) [] used errs) as [[[chain used1] errs1]|] eqn:El; [|discriminate].
    pose proof (chain_loop_ends _ _ _ _ _ _ _ _ El) as (chain' & d & Hfo & Hl & Ec). cbn in Ec. subst chain'.
    assert (El' : chain_loop (S (fuel + length chain)) (continuation_index conts) e (ce_cont e) [] used errs = Some (chain, used1, errs1)).
    { assert (Hm : forall n m o c0 us er r, n <= m -> chain_loop n (continuation_index conts) e o c0 us er = Some r ->
        chain_loop m (continuation_index conts) e o c0 us er = Some r).
      { clear. induction n as [|n IH]; intros [|m] o c0 us er r Hnm; (destruct o as [i|]; cbn [chain_loop]; auto; try discriminate; try lia).
        destruct (dict_get str_eqb (continuation_index conts) i); [|auto]. apply IH. lia. }
      eapply Hm; [|exact El]. lia. }
    rewrite (chain_loop_follows conts e _ chain d Hfo) in El' by lia. cbn [app] in El'.
    set (ids := ids_of conts (ce_cont e) chain) in *.
    assert (used1 = rev ids ++ used) as -> by congruence.
    assert (errs1 = errs ++ reused_errs (ce_key e) used (ids ++ dangling_ids d) ++
        match d with Some i => [InvalidId (ce_key e) i] | None => [] end) as -> by congruence.
    assert (Hd : forall i, d = Some i -> target conts i = None).
    { clear -Hfo. induction Hfo; intros i Hi; [discriminate|congruence|auto]. }
    assert (Hnd : NoDup (ids ++ dangling_ids d)).
    { pose proof (ids_of_nodup _ _ _ _ Hfo) as Hn. fold ids in Hn. destruct d as [i|]; cbn [dangling_ids]; [|rewrite app_nil_r; exact Hn].
      apply NoDup_snoc; [exact Hn|]. unfold ids. rewrite (ids_of_in _ _ _ _ _ Hfo). intros (c & Hc & Hid).
      pose proof (follows_target _ _ _ _ _ _ Hfo Hc Hid) as Hx. rewrite (Hd i eq_refl) in Hx. discriminate. }
    rewrite (IH _ _ _ _ _ Hr).
    2: { intros i Hi. apply in_app_or in Hi as [Hi|Hi]; [|auto]. apply in_rev in Hi. unfold ids in Hi.
         rewrite (ids_of_in _ _ _ _ _ Hfo) in Hi. destruct Hi as (c & Hc & Hid).
         rewrite (follows_target _ _ _ _ _ _ Hfo Hc Hid). discriminate. }
    assert (Hon : forall c, on_chain conts e c <-> In c chain).
    { intros c. split; [intros (ch' & d' & Hf' & Hc)|intros Hc; exists chain, d; auto].
      destruct (follows_unique _ _ _ _ Hfo _ _ Hf') as [-> _]. exact Hc. }
    assert (He : In (Reused k id) (errs ++ reused_errs (ce_key e) used (ids ++ dangling_ids d) ++
        match d with Some i => [InvalidId (ce_key e) i] | None => [] end) <->
      In (Reused k id) errs \/ (ce_key e = k /\ exists c, In c chain /\ ce_id c = Some id /\ In id used)).
    { rewrite !in_app_iff, (reused_in _ _ _ _ _ Hnd), in_app_iff. unfold ids. rewrite (ids_of_in _ _ _ _ _ Hfo). split.
      - intros [H|[(-> & Hi & Hu)|H]]; [auto| |destruct d; [destruct H as [H|[]]; discriminate|destruct H]].
        right. split; [reflexivity|]. destruct Hi as [(c & Hc & Hid)|Hi]; [eauto|].
        exfalso. destruct d as [i|]; [|destruct Hi]. destruct Hi as [<-|[]]. apply (Hused _ Hu), Hd. reflexivity.
      - intros [H|(<- & c & Hc & Hid & Hu)]; [auto|]. right. left. repeat split; [left; eauto|exact Hu]. }
    rewrite He. split.
    + intros [[H|(Hk & c & Hc & Hid & Hu)]|(pre & e1 & post & c & -> & Hk & Hc & Hid & Hor)]; [auto| |].
      * right. exists [], e, els, c. rewrite Hon. cbn. auto 10.
      * right. exists (e :: pre), e1, post, c. split; [reflexivity|]. split; [exact Hk|]. split; [exact Hc|]. split; [exact Hid|].
        destruct Hor as [Hi|(e' & He' & Hce)]; [|right; exists e'; cbn; auto].
        apply in_app_or in Hi as [Hi|Hi]; [|auto]. apply in_rev in Hi. unfold ids in Hi. rewrite (ids_of_in _ _ _ _ _ Hfo) in Hi.
        destruct Hi as (c' & Hc' & Hid'). right. exists e. split; [left; reflexivity|].
        apply Hon. pose proof (follows_target _ _ _ _ _ _ Hfo Hc' Hid'). destruct Hc as (ch2 & d2 & Hf2 & Hc2).
        pose proof (follows_target _ _ _ _ _ _ Hf2 Hc2 Hid). assert (c' = c) as <- by congruence. exact Hc'.
    + intros [H|(pre & e1 & post & c & E & Hk & Hc & Hid & Hor)]; [auto|].
      destruct pre as [|e0 pre]; injection E as <- E.
      * destruct Hor as [Hu|(e' & [] & _)]. left. right. split; [exact Hk|]. exists c. rewrite Hon in Hc. auto.
      * right. exists pre, e1, post, c. split; [exact E|]. split; [exact Hk|]. split; [exact Hc|]. split; [exact Hid|].
        rewrite in_app_iff, <- in_rev. destruct Hor as [Hu|(e' & [<-|He'] & Hce)]; [auto| |right; eauto].
        left. left. unfold ids. rewrite (ids_of_in _ _ _ _ _ Hfo). exists c. rewrite Hon in Hce. auto.
Qed.

Lemma chains_loop_ends conts : forall els fuel cs used errs r,
  chains_loop fuel (continuation_index conts) els cs used errs = Some r ->
  forall e, In e els -> exists chain d, follows conts (ce_cont e) chain d.
Proof.
  induction els as [|e0 els IH]; intros fuel cs used errs r Hr e He; [destruct He|].
  cbn [chains_loop] in Hr. destruct (chain_loop fuel _ e0 (ce_cont e0) [] used errs) as [[[chain used1] errs1]|] eqn:El; [|discriminate].
  destruct He as [<-|He]; [|eapply IH; eauto].
  pose proof (chain_loop_ends _ _ _ _ _ _ _ _ El) as (chain' & d & Hfo & _ & _). eauto.
Qed.

(** Keys of the index. *)
Lemma index_keys conts id : In id (dict_keys (continuation_index conts)) <-> exists e, In e conts /\ ce_id e = Some id.
Proof.
  split.
  - intros H. destruct (target conts id) as [c|] eqn:Et.
    + destruct (target_id _ _ _ Et). eauto.
    + exfalso. rewrite <- index_get in Et. apply (dict_get_none str_eqb str_eqb_spec) in Et. apply Et, H.
  - intros H. destruct (in_dec str_eq_dec id (dict_keys (continuation_index conts))) as [Hi|Hn]; [exact Hi|].
    exfalso. apply (dict_get_none str_eqb str_eqb_spec) in Hn. rewrite index_get in Hn. apply target_none in Hn. auto.
Qed.
