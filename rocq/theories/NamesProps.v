(** C32: what every text of a name means.  C34: namespaces whose prefixes clash. *)
From Verif Require Import Base Regex RegexProofs PyNum NetSpec QNameModel QNameSpec QNameProofs NsProofs QNameProps.

(** ** Every text is some name (C32) *)

(** [s] is [{uri}local]. *)
Definition is_clark (s uri l : str) : Prop :=
  s = u "{" ++ uri ++ u "}" ++ l /\ uri <> [] /\ l <> [] /\ without (ch "}") uri /\ without (ch "{") l.
(** What a prefix stands for in a scope; [xml] always means the XML namespace. *)
Inductive stands_for (sc : scope) : option str -> str -> Prop :=
| st_xml : stands_for sc (Some (u "xml")) xml_ns
| st_bound p uri : p <> Some (u "xml") -> In (p, uri) sc -> stands_for sc p uri
| st_nothing p : p <> Some (u "xml") -> (forall uri, ~ In (p, uri) sc) -> stands_for sc p (u "None").
(** The name that the text means in the scope. *)
Inductive names_it (sc : scope) (s : str) : qname -> Prop :=
| n_clark uri p l : is_clark s uri l -> names_it sc s (QName uri p l)
| n_prefixed uri p l : (forall a b, ~ is_clark s a b) -> is_prefixed s p l -> stands_for sc (Some p) uri -> names_it sc s (QName uri p l)
| n_local uri : (forall a b, ~ is_clark s a b) -> (forall a b, ~ is_prefixed s a b) -> stands_for sc None uri -> names_it sc s (QName uri [] s).

Lemma clark_exact s : (exists c, re_match clark_re s = Some c) <-> exists uri l, is_clark s uri l.
Proof.
  split.
  - intros (c & H). apply re_match_sound in H as (s' & H). cbn [clark_re rseq fold_right MT] in H.
    destruct H as (s1 & c1 & (E & _) & s2 & c2 & (c0 & p & (p0 & E0 & Hp & Lp & _ & _) & E1 & _) & s3 & c3 & (E2 & _)
                   & s4 & c4 & (c5 & l & (l0 & E3 & Hl & Ll & _ & _) & E4 & _) & s5 & c6 & (He & -> & _) & (-> & _)).
    clear E1 E4. exists p0. assert (Hp1 : p0 <> []) by (intros ->; cbn in Lp; lia). assert (Hl1 : l0 <> []) by (intros ->; cbn in Ll; lia).
    apply all_without in Hp, Hl. apply at_end_cases in He as [-> | ->].
    + exists l0. subst s s1 s2 s3. rewrite app_nil_r. repeat split; assumption.
    + exists (l0 ++ [10%N]). subst s s1 s2 s3. repeat split; try assumption.
      * destruct l0; discriminate.
      * unfold without. rewrite in_app_iff. intros [H|[H|[]]]; [contradiction|discriminate].
  - intros (uri & l & -> & A & B & C & D). eexists. exact (clark_re_to_clark uri l A C B D).
Qed.
Lemma stands sc p uri : NoDup (map fst sc) -> p <> Some (u "xml") -> (stands_for sc p uri <-> str_opt (dict_get key_eqb sc p) = uri).
Proof.
  intros N Hx. split.
  - intros S. inversion S as [E1 E2|q uri' _ H E1 E2|q _ H E1 E2]; subst; [congruence| |].
    + rewrite (dict_get_in_nodup _ key_eqb_spec _ _ _ N H). reflexivity.
    + assert (dict_get key_eqb sc p = None) as ->; [|reflexivity]. apply (dict_get_none _ key_eqb_spec). unfold dict_keys. rewrite in_map_iff. intros ([k v] & <- & K). exact (H v K).
  - intros <-. destruct (dict_get key_eqb sc p) as [v|] eqn:E; cbn [str_opt].
    + apply st_bound; [exact Hx|]. apply (dict_get_in _ key_eqb_spec), E.
    + apply st_nothing; [exact Hx|]. intros v H. apply (dict_get_none _ key_eqb_spec) in E. apply E. apply (in_map fst) in H. exact H.
Qed.
Lemma prefixed_one s p l p' l' : is_prefixed s p l -> is_prefixed s p' l' -> p = p' /\ l = l'.
Proof. intros (E & _ & _ & A & _) (E' & _ & _ & A' & _). rewrite E in E'. exact (split_unique (ch ":") _ _ _ _ A A' E'). Qed.
Lemma clark_one s a b a' b' : is_clark s a b -> is_clark s a' b' -> a = a' /\ b = b'.
Proof.
  intros (E & _ & _ & A & _) (E' & _ & _ & A' & _). rewrite E in E'. injection E' as E'. exact (split_unique (ch "}") _ _ _ _ A A' E').
Qed.
(** Reading a text never fails, and gives a name that the text means; but for the prefix of a Clark text, it
    means only one. *)
Theorem C32_meaning s sc : NoDup (map fst sc) ->
  (exists q, qname_from_str s sc = Ok q /\ names_it sc s q) /\
  forall q q', names_it sc s q -> names_it sc s q' -> q_uri q = q_uri q' /\ q_local q = q_local q' /\ ((forall a b, ~ is_clark s a b) -> q = q').
Proof.
  intros N. split.
  - unfold qname_from_str, qname_from_clark, qname_from_colon, qname_from_local. destruct (re_match clark_re s) as [c|] eqn:Ec.
    + destruct (proj1 (clark_exact s) (ex_intro _ c Ec)) as (uri & l & H). pose proof H as (-> & A & B & C & D).
      change (u "{" ++ uri ++ u "}" ++ l) with (to_clark uri l) in *. rewrite (clark_re_to_clark uri l A C B D) in *. injection Ec as <-. rewrite cap_1, cap_2.
      eexists. split; [reflexivity|]. constructor. exact H.
    + assert (K : forall a b, ~ is_clark s a b). { intros a b H. destruct (proj2 (clark_exact s) (ex_intro _ a (ex_intro _ b H))) as (c & E). congruence. }
      destruct (re_match colon_re s) as [c|] eqn:Eo.
      * destruct (colon_re_some _ _ Eo) as (p & l & H). rewrite (colon_re_prefixed _ _ _ H) in Eo. injection Eo as <-. rewrite cap_1, cap_2. eexists. split; [reflexivity|].
        apply n_prefixed; [exact K|exact H|]. destruct (str_eqb_spec p (u "xml")) as [->|Hx].
        -- rewrite (dict_get_set_same _ key_eqb_spec). cbn [str_opt]. constructor.
        -- assert (Hy : Some p <> Some (u "xml")) by congruence. rewrite (dict_get_set_other _ key_eqb_spec) by congruence. apply (stands sc (Some p) _ N Hy). reflexivity.
      * eexists. split; [reflexivity|]. apply n_local; [exact K|apply colon_re_none, Eo|]. apply (stands sc None _ N); [discriminate|reflexivity].
  - assert (S : forall p a b, stands_for sc p a -> stands_for sc p b -> a = b).
    { intros p a b A B. destruct (key_eqb_spec p (Some (u "xml"))) as [->|Hx].
      - inversion A; subst; try congruence. inversion B; subst; try congruence.
      - apply (stands sc p a N Hx) in A. apply (stands sc p b N Hx) in B. congruence. }
    intros q q' [uri p l H|uri p l K H E|uri K H E] [uri' p' l' H'|uri' p' l' K' H' E'|uri' K' H' E']; cbn [q_uri q_local];
      try (exfalso; first [exact (K' _ _ H)|exact (K _ _ H')|exact (H' _ _ H)|exact (H _ _ H')]; fail).
    + destruct (clark_one _ _ _ _ _ H H') as [-> ->]. split; [reflexivity|]. split; [reflexivity|]. intros G. destruct (G _ _ H).
    + destruct (prefixed_one _ _ _ _ _ H H') as [-> ->]. rewrite (S _ _ _ E E'). auto.
    + rewrite (S _ _ _ E E'). auto.
Qed.
(** A name without a prefix is in the default namespace; braces within a local name make it none of the two. *)
Example C32_example_meaning : let sc := [(Some (u "a"), u "http://a"); (None, u "http://d")] in NoDup (map fst sc) /\
  qname_from_str (u "Assets") sc = Ok (QName (u "http://d") [] (u "Assets")) /\
  qname_from_str (u "{http://a}x{y") sc = Ok (QName (u "None") (u "{http") (u "//a}x{y")).
Proof.
  cbv zeta. split; [|split; vm_compute; reflexivity]. constructor; [intros [H|[]]; discriminate H|]. constructor; [intros []|constructor].
Qed.

(** ** Prefixes that clash (C34) *)

(** The number that digits of any script write *)
Definition digit_value (c : N) : Z := match digit_of c with Some d => d | None => 0%Z end.
Definition val_from (a : Z) (s : str) : Z := fold_left (fun acc c => (acc * 10 + digit_value c)%Z) s a.
Definition digits_val (s : str) : Z := val_from 0 s.
Definition all_digits (s : str) : Prop := forall c, In c s -> digit_of c <> None.
(** [q] is [p] with the number at its end increased by one; without a number it is 1. *)
Definition next_prefix (p q : str) : Prop :=
  exists stem ds, p = stem ++ ds /\ all_digits ds /\ (forall a c, stem = a ++ [c] -> digit_of c = None) /\ q = stem ++ z_to_str (digits_val ds + 1).

Lemma is_digit_of c : is_digit c = true <-> digit_of c <> None.
Proof. unfold is_digit. destruct (digit_of c); split; congruence. Qed.
Lemma digit_in c d : digit_of c = Some d -> exists z k, In z nd_zeros /\ In k (seq 0 10) /\ c = (z + N.of_nat k)%N /\ d = Z.of_nat k.
Proof.
  unfold digit_of. destruct (find _ nd_zeros) as [z|] eqn:E; [|discriminate]. intros [= <-]. apply find_some in E as [A B]. apply andb_true_iff in B as [B C]. apply N.leb_le in B, C.
  exists z, (N.to_nat (c - z)). split; [exact A|]. split; [apply in_seq; lia|]. split; lia.
Qed.
Lemma digit_fits c : digit_of c <> None -> is_space c = false /\ N.eqb c 45 = false /\ N.eqb c 43 = false /\ N.eqb c 95 = false.
Proof.
  intros H. destruct (digit_of c) as [d|] eqn:E; [|congruence]. apply digit_in in E as (z & k & A & B & -> & _).
  assert (K : forallb (fun z => forallb (fun k => let c := (z + N.of_nat k)%N in negb (is_space c) && negb (N.eqb c 45) && negb (N.eqb c 43) && negb (N.eqb c 95)) (seq 0 10)) nd_zeros = true)
    by (vm_compute; reflexivity).
  rewrite forallb_forall in K. specialize (K z A). rewrite forallb_forall in K. specialize (K k B). cbv zeta in K. rewrite !andb_true_iff, !negb_true_iff in K. tauto.
Qed.
Lemma digits_int s : forall a b, all_digits s -> s <> [] \/ b = true -> int_digits s a b = Some (val_from a s).
Proof.
  induction s as [|c s IH]; intros a b H Hb; cbn [int_digits]; [destruct Hb as [Hb| ->]; [congruence|reflexivity]|].
  assert (Hc : digit_of c <> None) by (apply H; left; reflexivity). destruct (digit_fits c Hc) as (_ & _ & _ & ->). unfold val_from. cbn [fold_left]. unfold digit_value at 2.
  destruct (digit_of c) as [d|]; [|congruence]. apply IH; [intros x Hx; apply H; right; exact Hx|right; reflexivity].
Qed.
Lemma digits_strip s : all_digits s -> strip s = s.
Proof.
  intros H. destruct s as [|c s]; [reflexivity|]. unfold strip, lstrip. cbn [drop_while]. destruct (digit_fits c) as (-> & _); [apply H; left; reflexivity|].
  unfold rstrip. destruct (exists_last (l := c :: s)) as (p & x & E); [discriminate|]. rewrite E in *. unfold rdrop_while. rewrite rev_app_distr. cbn [rev app drop_while].
  destruct (digit_fits x) as (-> & _); [apply H, in_elt|]. cbn [rev]. rewrite rev_involutive. reflexivity.
Qed.
Lemma digits_py s : all_digits s -> s <> [] -> py_int s = Some (digits_val s).
Proof.
  intros H N. unfold py_int. rewrite (digits_strip s H). destruct s as [|c s]; [congruence|]. destruct (digit_fits c) as (_ & -> & -> & _); [apply H; left; reflexivity|].
  apply digits_int; [exact H|left; exact N].
Qed.
Lemma take_digits l : (fix take l := match l with c :: t => if is_digit c then c :: take t else [] | [] => [] end) l ++ drop_while is_digit l = l /\
  forallb is_digit ((fix take l := match l with c :: t => if is_digit c then c :: take t else [] | [] => [] end) l) = true.
Proof. induction l as [|c l [IH1 IH2]]; [split; reflexivity|]. cbn. destruct (is_digit c) eqn:E; [|split; reflexivity]. cbn. rewrite IH1, E, IH2. split; reflexivity. Qed.
Lemma trailing_split p : without_trailing_digits p ++ trailing_digits p = p /\ all_digits (trailing_digits p).
Proof.
  unfold without_trailing_digits, rdrop_while, trailing_digits, all_digits. destruct (take_digits (rev p)) as [A B]. split.
  - rewrite <- rev_app_distr, A, rev_involutive. reflexivity.
  - rewrite forallb_forall in B. intros c H. apply is_digit_of, B. apply in_rev in H. exact H.
Qed.
Lemma alternative_next p : next_prefix p (generate_alternative_prefix p).
Proof.
  destruct (trailing_split p) as [A B]. exists (without_trailing_digits p), (trailing_digits p). split; [symmetry; exact A|]. split; [exact B|]. split.
  - intros a c E. destruct (rdrop_while_split is_digit p) as (_ & _ & _ & [K|(b & x & K & F)]); unfold without_trailing_digits in E; rewrite E in K.
    + destruct a; discriminate K.
    + apply app_inj_tail in K as [_ <-]. unfold is_digit in F. destruct (digit_of c); [discriminate F|reflexivity].
  - unfold generate_alternative_prefix. f_equal. destruct (trailing_digits p) as [|c t] eqn:E; [reflexivity|]. unfold run_value. rewrite digits_py; [reflexivity|exact B|discriminate].
Qed.
Lemma next_one p q q' : next_prefix p q -> next_prefix p q' -> q = q'.
Proof.
  intros (s & d & -> & A & B & ->) (s' & d' & E & A' & B' & ->).
  assert (G : forall s d s' d', s ++ d = s' ++ d' -> all_digits d' -> (forall a c, s = a ++ [c] -> digit_of c = None) -> length s <= length s').
  { clear. intros s d s' d' E A B. destruct (Nat.le_gt_cases (length s) (length s')) as [H|H]; [exact H|exfalso].
    assert (K : exists r, s = s' ++ r /\ d' = r ++ d).
    { clear A B. revert s' E H. induction s as [|x s IH]; intros [|y s'] E H; cbn in H; try lia; [exists (x :: s); split; [reflexivity|symmetry; exact E]|].
      injection E as -> E. destruct (IH s' E) as (r & -> & ->); [lia|]. exists r. split; reflexivity. }
    destruct K as (r & -> & ->). destruct (exists_last (l := r)) as (a & c & ->); [intros ->; rewrite app_nil_r in H; lia|].
    specialize (B (s' ++ a) c). rewrite app_assoc in B. specialize (B eq_refl). apply (A c); [|exact B].
    apply in_or_app. left. apply in_or_app. right. left. reflexivity. }
  assert (L : length s = length s') by (apply Nat.le_antisymm; [apply (G s d s' d' E A' B)|apply (G s' d' s d (eq_sym E) A B')]).
  assert (K : s = s' /\ d = d').
  { clear -L E. revert s' L E. induction s as [|x s IH]; intros [|y s'] L E; try discriminate L; [auto|]. injection E as -> E. injection L as L. destruct (IH s' L E) as [-> ->]. auto. }
  destruct K as [-> ->]. reflexivity.
Qed.

(** [digits_val] undoes [z_to_str]. *)
Lemma digit_48 d : (0 <= d < 10)%Z -> digit_value (48 + Z.to_N d)%N = d.
Proof.
  intros H. assert (K : forallb (fun k => Z.eqb (digit_value (48 + Z.to_N (Z.of_nat k))%N) (Z.of_nat k)) (seq 0 10) = true) by (vm_compute; reflexivity).
  rewrite forallb_forall in K. specialize (K (Z.to_nat d)). rewrite Z2Nat.id in K by lia. apply Z.eqb_eq, K, in_seq. lia.
Qed.
Lemma dec_val_from fuel : forall n acc, (0 <= n < 2 ^ Z.of_nat fuel)%Z -> (0 < fuel)%nat -> val_from 0 (dec_digits_fuel fuel n acc) = val_from n acc.
Proof.
  induction fuel as [|f IH]; intros n acc Hn Hf; [lia|]. cbn [dec_digits_fuel]. destruct (n <? 10)%Z eqn:E.
  - apply Z.ltb_lt in E. unfold val_from. cbn [fold_left]. rewrite Z.mod_small, digit_48 by lia. reflexivity.
  - apply Z.ltb_ge in E. destruct f as [|f]; [cbn in Hn; lia|].
    assert (Hd : (0 <= n / 10 < 2 ^ Z.of_nat (S f))%Z).
    { split; [apply Z.div_pos; lia|]. apply Z.div_lt_upper_bound; [lia|]. rewrite (Nat2Z.inj_succ (S f)), Z.pow_succ_r in Hn by lia. lia. }
    rewrite IH; [|exact Hd|lia]. unfold val_from. cbn [fold_left]. f_equal. rewrite digit_48 by (apply Z.mod_pos_bound; lia). pose proof (Z.div_mod n 10). lia.
Qed.
Lemma val_z n : (0 <= n)%Z -> digits_val (z_to_str n) = n.
Proof.
  intros H. unfold z_to_str. rewrite Z.abs_eq by exact H. destruct (n <? 0)%Z eqn:E; [apply Z.ltb_lt in E; lia|]. change (val_from 0 (dec_digits_fuel (S (Z.to_nat (Z.log2 n))) n []) = n).
  rewrite dec_val_from; [reflexivity| |lia]. split; [exact H|]. rewrite Nat2Z.inj_succ, Z2Nat.id by apply Z.log2_nonneg.
  destruct (Z.eq_dec n 0) as [->|Hz]; [cbn; lia|]. apply Z.log2_spec. lia.
Qed.
Lemma digits_pos s : (0 <= digits_val s)%Z.
Proof.
  unfold digits_val. assert (G : forall a, (0 <= a)%Z -> (0 <= val_from a s)%Z); [|apply G; lia]. unfold val_from.
  induction s as [|c s IH]; intros a Ha; [exact Ha|]. cbn [fold_left]. apply IH. unfold digit_value. destruct (digit_of c) as [d|] eqn:E; [|lia]. apply digit_in in E as (_ & k & _ & _ & _ & ->). lia.
Qed.
Lemma next_other p q : next_prefix p q -> q <> p.
Proof.
  intros (s & d & -> & A & _ & ->) E. apply app_inv_head in E. pose proof (digits_pos d) as H. pose proof (val_z (digits_val d + 1)) as K. rewrite E in K. lia.
Qed.

(** How the main prefix of a namespace came about: chosen for it, or the next one to a chosen prefix that is taken. *)
Definition given_prefix (default : str -> option str) (maps : list scope) (nsmap : list (str * str)) (q uri : str) : Prop :=
  eligible default maps q uri \/
  exists p, eligible default maps p uri /\ next_prefix p q /\ exists other, In (p, other) nsmap /\ ~ same_family other uri.
(** No clash but of two namespaces for one prefix, the next of which no other namespace gets *)
Definition mild (default : str -> option str) (maps : list scope) : Prop :=
  (forall p u1 u2 u3, eligible default maps p u1 -> eligible default maps p u2 -> eligible default maps p u3 -> same_family u1 u2 \/ same_family u2 u3 \/ same_family u1 u3) /\
  (forall p q u1 u2, eligible default maps p u1 -> next_prefix p q -> eligible default maps q u2 -> same_family u1 u2) /\
  (forall p1 p2 q u1 u2, eligible default maps p1 u1 -> eligible default maps p2 u2 -> next_prefix p1 q -> next_prefix p2 q -> p1 = p2 \/ same_family u1 u2).

Section Clash.
Variable default : str -> option str.
Variable ord : list str -> list str.
Variable maps : list scope.
Hypothesis Ho : some_order ord.
Hypothesis Hm : mild default maps.
Notation B := (bindings maps).
Notation el := (eligible default maps).
Lemma chosen_eligible p uri : may_choose default B p uri -> el p uri.
Proof.
  unfold may_choose, eligible. intros ((q & Hq) & H). split; [exists q; apply bindings_bound; exact Hq|]. destruct H as [H|(H & x & Hx & Hf)]; [left; exact H|]. right. split; [exact H|].
  exists x. split; [apply bindings_bound; exact Hx|apply same_family_iff; exact Hf].
Qed.
Lemma given_more l l' q uri : (forall p x, In (p, x) l -> In (p, x) l') -> given_prefix default maps l q uri -> given_prefix default maps l' q uri.
Proof. intros H [A|(p & A & C & o & D & E)]; [left; exact A|right]. exists p. split; [exact A|]. split; [exact C|]. exists o. split; [apply H, D|exact E]. Qed.
Lemma families_apart st k done p1 u1 p2 u2 : built B done st -> In (p1, u1) (nm_nsmap st) -> In (p2, u2) (nm_nsmap st) -> p1 <> p2 -> k = url_remove_version u1 -> k <> url_remove_version u2.
Proof.
  intros [_ Bf _ _] H1 H2 N E1 E2. apply N. revert Bf H1 H2. generalize (nm_nsmap st). intros l Bf H1 H2. clear -Bf H1 H2 E1 E2. induction l as [|x l IH]; [destruct H1|].
  cbn [map] in Bf. inversion_clear Bf as [|? ? Hni Hl]. destruct H1 as [H1|H1], H2 as [H2|H2].
  - congruence.
  - exfalso. apply Hni. subst x. apply in_map_iff. exists (p2, u2). split; [|exact H2]. unfold fam; cbn [snd]. congruence.
  - exfalso. apply Hni. subst x. apply in_map_iff. exists (p1, u1). split; [|exact H1]. unfold fam; cbn [snd]. congruence.
  - auto.
Qed.
Lemma clash_step done st k c : built B done st -> is_comp B k c -> ~ In k done -> (forall p x, In (p, x) (nm_nsmap st) -> given_prefix default maps (nm_nsmap st) p x) ->
  exists st' q mu, normalize_component default ord st c = Ok st' /\ built B (k :: done) st' /\ nm_nsmap st' = nm_nsmap st ++ [(q, mu)] /\ url_remove_version mu = k /\
    given_prefix default maps (nm_nsmap st) q mu.
Proof.
  intros Hb Hc Hk Hg. destruct (normalize_step default ord B done st k c Ho Hb Hc Hk) as (st1 & mp1 & mu1 & E1 & Hb1 & _).
  destruct (component_ok default ord B k c Ho Hc) as (mp & mu & red & E & Hmu & _ & Hmp & _).
  pose proof Hc as (_ & _ & Hfu & Hfp). pose proof Hmu as Hmu'. apply Hfu in Hmu' as (q0 & Hq0 & Hfam).
  assert (Hel : el mp mu).
  { apply chosen_eligible. split; [eauto|]. destruct Hmp as [Hd | (Hd & Hin & _)]; [left; exact Hd|]. right. split; [exact Hd|]. apply Hfp in Hin as (x & Hx & Hfx). exists x. split; [exact Hx|congruence]. }
  exists st1. pose proof E1 as E2. unfold normalize_component in E2. rewrite E in E2. cbn [bind] in E2. unfold dict_mem in E2. destruct (dict_get str_eqb (nm_nsmap st) mp) as [u0|] eqn:G.
  - injection E2 as <-. cbn [nm_nsmap]. exists (generate_alternative_prefix mp), mu. split; [exact E1|]. split; [exact Hb1|].
    pose proof (alternative_next mp) as Hn. set (q := generate_alternative_prefix mp) in *. apply (dict_get_in _ str_eqb_spec) in G.
    assert (D : forall p x, In (p, x) (nm_nsmap st) -> ~ same_family x mu).
    { intros p x Hx Hs. destruct Hb as [_ _ Bfrom _]. apply Bfrom in Hx as (Hx & _). apply same_family_iff in Hs. apply Hk. rewrite <- Hfam, <- Hs. exact Hx. }
    destruct Hm as (M1 & M2 & M3).
    assert (Hu0 : el mp u0).
    { destruct (Hg _ _ G) as [K|(p0 & K & Kn & _)]; [exact K|exfalso]. exact (D _ _ G (M2 _ _ _ _ K Kn Hel)). }
    split; [|split; [exact Hfam|right; exists mp; split; [exact Hel|]; split; [exact Hn|]; exists u0; split; [exact G|exact (D _ _ G)]]].
    apply (dict_set_keys_new _ str_eqb_spec). intros Hin. unfold dict_keys in Hin. apply in_map_iff in Hin as ([q' u2] & Eq & Hin). cbn [fst] in Eq. subst q'.
    assert (Dq : ~ same_family u2 mu) by exact (D _ _ Hin). destruct (Hg _ _ Hin) as [K|(p2 & K & Kn & _)].
    + pose proof (M2 _ _ _ _ Hel Hn K) as S. apply Dq. apply same_family_iff in S. apply same_family_iff. symmetry. exact S.
    + destruct (M3 _ _ _ _ _ K Hel Kn Hn) as [->|S]; [|exact (Dq S)].
      assert (F : ~ same_family u0 u2).
      { intros S. apply same_family_iff in S. refine (families_apart st _ done mp u0 q u2 Hb G Hin _ eq_refl S). apply not_eq_sym, next_other, Hn. }
      destruct (M1 _ _ _ _ Hu0 K Hel) as [S|[S|S]]; [exact (F S)|exact (Dq S)|exact (D _ _ G S)].
  - injection E2 as <-. cbn [nm_nsmap]. exists mp, mu. split; [exact E1|]. split; [exact Hb1|]. split; [|split; [exact Hfam|left; exact Hel]].
    apply (dict_set_keys_new _ str_eqb_spec), (dict_get_none _ str_eqb_spec), G.
Qed.
Lemma clash_all cs : forall done st, built B done st -> NoDup (map fst cs) -> (forall k, In k (map fst cs) -> ~ In k done) -> (forall k c, In (k, c) cs -> is_comp B k c) ->
  (forall p x, In (p, x) (nm_nsmap st) -> given_prefix default maps (nm_nsmap st) p x) ->
  exists st', normalize_all default ord st (map snd cs) = Ok st' /\ (forall p x, In (p, x) (nm_nsmap st) -> In (p, x) (nm_nsmap st')) /\
    (forall k, In k (map fst cs) -> exists p x, In (p, x) (nm_nsmap st') /\ url_remove_version x = k) /\
    (forall p x, In (p, x) (nm_nsmap st') -> given_prefix default maps (nm_nsmap st') p x).
Proof.
  induction cs as [|[k c] cs IH]; intros done st Hb Hn Hd Hc Hg; cbn [map normalize_all]; [exists st; split; [reflexivity|]; split; [auto|]; split; [intros k []|exact Hg]|].
  cbn [map fst snd] in *. inversion_clear Hn as [|? ? Hni Hn']. destruct (clash_step done st k c Hb) as (st1 & q & mu & E & Hb1 & En & Ef & Gq); [apply Hc; left; reflexivity|apply Hd; left; reflexivity|exact Hg|].
  rewrite E. cbn [bind]. assert (I : forall p x, In (p, x) (nm_nsmap st) -> In (p, x) (nm_nsmap st1)) by (intros p x H; rewrite En; apply in_or_app; left; exact H).
  destruct (IH (k :: done) st1 Hb1 Hn') as (st' & E' & I' & A & G').
  - intros k' Hk' [<-|Hin]; [contradiction|]. apply (Hd k'); [right; exact Hk'|exact Hin].
  - intros k' c' H. apply Hc. right. exact H.
  - intros p x H. rewrite En in H. apply in_app_or in H as [H|[H|[]]]; [exact (given_more _ _ _ _ I (Hg _ _ H))|]. injection H as <- <-. exact (given_more _ _ _ _ I Gq).
  - exists st'. split; [exact E'|]. split; [intros p x H; apply I', I, H|]. split; [|exact G'].
    intros k' [<-|H]; [|exact (A k' H)]. exists q, mu. split; [|exact Ef]. apply I'. rewrite En. apply in_elt.
Qed.
End Clash.

(** If at most two namespaces clash for a prefix and the next prefix is free, no namespace is lost: each has a
    main prefix that was chosen for it, or the next to the one chosen, if that is the prefix of another. *)
Theorem C34_clash_partial default ord maps : some_order ord -> mild default maps ->
  exists st, normalize_nsmap default ord maps = Ok st /\
    (forall p uri, bound maps p uri -> exists q x, In (q, x) (nm_nsmap st) /\ same_family uri x) /\
    (forall q x, In (q, x) (nm_nsmap st) -> given_prefix default maps (nm_nsmap st) q x).
Proof.
  intros Ho Hm. destruct (components_facts maps) as (Hn & Hc & Hb).
  destruct (clash_all default ord maps Ho Hm (components maps) [] (Norm [] [] [])) as (st & E & _ & A & G); auto using built_empty; [intros p x []|].
  exists st. split; [exact E|]. split; [|exact G]. intros p uri H. apply bindings_bound in H. destruct (Hb p uri H) as (c & Hc1 & _).
  destruct (A (url_remove_version uri)) as (q & x & Hq & Hf); [apply (in_map fst) in Hc1; exact Hc1|]. exists q, x. split; [exact Hq|]. apply same_family_iff. congruence.
Qed.

(** Two documents use one prefix for two namespaces: the second gets the next prefix. *)
Definition two_maps : list scope := [[(Some (u "ns9"), u "http://x/one")]; [(Some (u "ns9"), u "http://x/two")]].
Lemma two_eligible p uri : eligible (fun _ => None) two_maps p uri -> p = u "ns9" /\ (uri = u "http://x/one" \/ uri = u "http://x/two").
Proof.
  assert (G : forall q x, bound two_maps q x -> q = u "ns9" /\ (x = u "http://x/one" \/ x = u "http://x/two")).
  { intros q x (m & [<-|[<-|[]]] & [H|[]]); injection H as <- <-; auto. }
  intros ((q & A) & [H|(_ & x & C & _)]); [discriminate H|]. apply G in A as [_ A]. apply G in C as [C _]. auto.
Qed.
Example C34_example_clash : mild (fun _ => None) two_maps /\
  normalize_nsmap (fun _ => None) id_order two_maps = Ok (Norm [(u "ns9", u "http://x/one"); (u "ns10", u "http://x/two")] [] [(u "http://x/two", u "ns10")]).
Proof.
  split; [|vm_compute; reflexivity]. assert (R : forall x, same_family x x) by (intros x; apply same_family_iff; reflexivity). split; [|split].
  - intros p u1 u2 u3 A B C. apply two_eligible in A as [_ [->| ->]], B as [_ [->| ->]], C as [_ [->| ->]]; auto.
  - intros p q u1 u2 A N C. apply two_eligible in A as [-> _], C as [-> _]. destruct (next_other _ _ N eq_refl).
  - intros p1 p2 q u1 u2 A B _ _. apply two_eligible in A as [-> _], B as [-> _]. left. reflexivity.
Qed.

Print Assumptions C32_meaning.
Print Assumptions C34_clash_partial.
