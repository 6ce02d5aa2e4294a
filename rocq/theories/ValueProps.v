(** C62: the typed value of a fact. *)
From Verif Require Import Base PyNum NumSpec NumProofs DateProofs CtxModel ConceptModel ConceptSpec
  ConceptProofs ConceptProps ValueModel.
Local Open Scope nat_scope.

(** ** What is expected; the item types are those of [standard_types] *)

(** The texts of an integer in XML Schema, with white space around them *)
Definition blank (s : str) : Prop := forallb is_space s = true.
Definition signed (sign : str) (digits : str) (z : Z) : Prop :=
  (sign = [] \/ sign = u "+") /\ z = digits_val digits \/ sign = u "-" /\ z = (- digits_val digits)%Z.
Definition integer_text (s : str) (z : Z) : Prop :=
  exists before sign digits after, s = before ++ sign ++ digits ++ after /\ blank before /\ blank after /\
    digits <> [] /\ all_digits digits /\ signed sign digits z.

(** The texts of a boolean in XML Schema *)
Definition boolean_text (s : str) (b : bool) : Prop :=
  (s = u "true" \/ s = u "1") /\ b = true \/ (s = u "false" \/ s = u "0") /\ b = false.

(** ** Proofs *)

Lemma rdrop_while_blank (p q : str) c : blank q -> is_space c = false ->
  rdrop_while is_space ((p ++ [c]) ++ q) = p ++ [c].
Proof.
  intros Hq Hc. unfold rdrop_while. rewrite !rev_app_distr. cbn [rev app].
  rewrite drop_while_app_stop; [cbn [rev]; rewrite rev_involutive; reflexivity| |exact Hc].
  apply forallb_forall. intros x Hx. apply in_rev in Hx. unfold blank in Hq. rewrite forallb_forall in Hq. auto.
Qed.

Lemma strip_between (before s after : str) c d p : blank before -> blank after ->
  s = c :: p -> (exists q, s = q ++ [d]) -> is_space c = false -> is_space d = false ->
  strip (before ++ s ++ after) = s.
Proof.
  intros Hb Ha -> (q & E) Hc Hd. unfold strip, lstrip. cbn [app].
  rewrite drop_while_app_stop by auto.
  change (c :: p ++ after) with ((c :: p) ++ after). rewrite E. apply rdrop_while_blank; auto.
Qed.

Lemma int_text s z : integer_text s z -> py_int s = Some z.
Proof.
  intros (b & sg & ds & a & -> & Hb & Ha & Hn & Hd & Hs).
  destruct (exists_last Hn) as (q & d & Eq).
  assert (Hdd : is_digit d = true).
  { rewrite Eq in Hd. apply all_digits_app in Hd as [_ Hd]. apply all_digits_cons in Hd. tauto. }
  destruct ds as [|c t]; [congruence|].
  assert (Hcc : is_digit c = true) by (apply all_digits_cons in Hd; tauto).
  assert (G : int_digits (c :: t) 0 false = Some (digits_val (c :: t)))
    by (apply int_digits_ascii; [exact Hd|left; discriminate]).
  unfold py_int. destruct Hs as [[[-> | ->] ->]|[-> ->]].
  - change ([] ++ (c :: t) ++ a) with ((c :: t) ++ a).
    rewrite (strip_between b (c :: t) a c d t); auto; try (apply digit_not_space; assumption); [|eauto].
    destruct (N.eqb_spec c 45) as [->|_]; [discriminate Hcc|].
    destruct (N.eqb_spec c 43) as [->|_]; [discriminate Hcc|]. exact G.
  - change (u "+" ++ (c :: t) ++ a) with ((43%N :: c :: t) ++ a).
    rewrite (strip_between b (43%N :: c :: t) a 43%N d (c :: t)); auto;
      try (apply digit_not_space; assumption). rewrite Eq; exists (43%N :: q); reflexivity.
  - change (u "-" ++ (c :: t) ++ a) with ((45%N :: c :: t) ++ a).
    rewrite (strip_between b (45%N :: c :: t) a 45%N d (c :: t)); auto;
      try (apply digit_not_space; assumption); [|rewrite Eq; exists (45%N :: q); reflexivity].
    cbn [N.eqb Pos.eqb]. rewrite G. reflexivity.
Qed.

(** Facts of the standard item types have the value their text stands for: integers, floats,
    the booleans "true" and "false", and otherwise the text itself. *)
Theorem C62_value_partial {F} (float_of : str -> option F) (p : str) name so (text : str) :
  In (name, so) standard_types ->
  match so with
  | SInteger => forall z, integer_text text z ->
      get_value float_of (p ++ u ":" ++ u name) text = Ok (VInt z)
  | SDecimal => get_value float_of (p ++ u ":" ++ u name) text =
      match float_of text with Some f => Ok (VFloat f) | None => Raise ValueError end
  | SBoolean => forall b, boolean_text text b -> text <> u "1" -> text <> u "0" ->
      get_value float_of (p ++ u ":" ++ u name) text = Ok (VBool b)
  | SFraction | SOther => get_value float_of (p ++ u ":" ++ u name) text = Ok (VText text)
  end.
Proof.
  intros Hin. pose proof (C46_standard_types p name so Hin) as H. cbv zeta in H. unfold get_value.
  destruct so.
  - destruct (H ltac:(discriminate)) as (H1 & H2 & H3 & _). rewrite H2. intros z Hz.
    unfold fact_int. rewrite (int_text _ _ Hz). reflexivity.
  - destruct (H ltac:(discriminate)) as (H1 & H2 & H3 & _). rewrite H2, H1.
    unfold fact_float. destruct (float_of text); reflexivity.
  - assert (E : name = "fractionItemType"%string).
    { cbn in Hin. clear -Hin. repeat (destruct Hin as [E|Hin]; [inversion E; reflexivity|]). destruct Hin. }
    subst name. clear. unfold is_integer, is_numeric, is_boolean.
    assert (L : local_type (p ++ u ":" ++ u "fractionItemType") = u "fractionItemType").
    { apply local_part_type. split; [vm_compute; intuition discriminate|]. right. exists p. reflexivity. }
    rewrite L. reflexivity.
  - destruct (H ltac:(discriminate)) as (H1 & H2 & H3 & _). rewrite H1, H2, H3.
    intros b [[[->| ->] ->]|[[->| ->] ->]] N1 N0; try congruence; reflexivity.
  - destruct (H ltac:(discriminate)) as (H1 & H2 & H3 & _). rewrite H1, H2, H3. reflexivity.
Qed.

(** A value has the kind its data type calls for. *)
Theorem C62_kind {F} (float_of : str -> option F) data_type text v :
  get_value float_of data_type text = Ok v ->
  match v with
  | VInt _ => is_integer data_type = true
  | VFloat _ => is_numeric data_type = true /\ is_integer data_type = false
  | VBool _ => is_boolean data_type = true
  | VText s => s = text /\ is_numeric data_type = false /\ is_boolean data_type = false
  end.
Proof.
  unfold get_value. pose proof (C46_coherent data_type) as (C1 & _ & C3).
  destruct (is_integer data_type).
  - destruct (fact_int text); [intros [= <-]; reflexivity|discriminate].
  - destruct (is_numeric data_type).
    + destruct (fact_float float_of text); [intros [= <-]; auto|discriminate].
    + destruct (is_boolean data_type).
      * destruct (fact_bool text); [intros [= <-]; reflexivity|discriminate].
      * intros [= <-]. auto.
Qed.

(** Which texts are booleans: the words in any case (and with a long s) *)
Definition in_any_case (text : str) (word : list (list N)) : Prop := Forall2 (fun c l => In c l) text word.
Definition word_true : list (list N) := [u "Tt"; u "Rr"; u "Uu"; u "Ee"].
Definition word_false : list (list N) := [u "Ff"; u "Aa"; u "Ll"; 383%N :: u "Ss"; u "Ee"].

Lemma upper_letter c C l : (65 <= C <= 90)%N -> (forall x, In x l <-> x = C \/ x = (C + 32)%N \/ C = 83%N /\ x = 383%N) -> upper_char c = C <-> In c l.
Proof.
  intros HC Hl. rewrite Hl. unfold upper_char.
  destruct ((97 <=? c) && (c <=? 122))%N eqn:E.
  - apply andb_true_iff in E as [E1 E2]. apply N.leb_le in E1, E2. split; [intros; right; left; lia|intros [H|[H|H]]; lia].
  - apply andb_false_iff in E. rewrite !N.leb_gt in E. destruct (N.eqb_spec c 383) as [->|N]; [split; [intros <-; auto|intros [H|[H|H]]; lia]|].
    split; [auto|intros [H|[H|[_ H]]]; lia].
Qed.
Lemma upper_word text word letters : Forall2 (fun C l => forall c, upper_char c = C <-> In c l) letters word -> upper text = letters <-> in_any_case text word.
Proof.
  intros H. revert text. induction H as [|C l letters word H _ IH]; intros text; unfold in_any_case in *.
  - destruct text; split; intros X; [constructor|reflexivity|discriminate X|inversion X].
  - destruct text as [|c text]; [split; intros X; [discriminate X|inversion X]|]. unfold upper in *. cbn [map]. split; intros X.
    + injection X as X1 X2. constructor; [apply H, X1|apply IH, X2].
    + inversion X as [|? ? ? ? X1 X2]; subst. f_equal; [apply H, X1|apply IH, X2].
Qed.
Ltac letters := repeat first [apply Forall2_nil | apply Forall2_cons; [intros c; apply upper_letter; [split; vm_compute; discriminate|intros x; cbn; intuition (subst; auto; try discriminate)]|]].
Lemma upper_true text : upper text = u "TRUE" <-> in_any_case text word_true.
Proof. apply upper_word. letters. Qed.
Lemma upper_false text : upper text = u "FALSE" <-> in_any_case text word_false.
Proof. apply upper_word. letters. Qed.

Lemma boolean_upper text (b : bool) : fact_bool text = Ok b <-> upper text = (if b then u "TRUE" else u "FALSE").
Proof.
  unfold fact_bool. destruct (str_eqb_spec (upper text) (u "TRUE")) as [E|E].
  - rewrite E. split; [intros [= <-]; reflexivity|]. destruct b; [reflexivity|discriminate].
  - destruct (str_eqb_spec (upper text) (u "FALSE")) as [E'|E'].
    + rewrite E'. split; [intros [= <-]; reflexivity|]. destruct b; [discriminate|reflexivity].
    + split; [discriminate|]. destruct b; congruence.
Qed.
Theorem C62_boolean_iff text b : fact_bool text = Ok b <-> in_any_case text (if b then word_true else word_false).
Proof. rewrite boolean_upper. destruct b; [apply upper_true|apply upper_false]. Qed.

(** Which texts are integers: digits of any script, one underscore allowed between two of them, a sign
    before them and blanks around them. *)
Definition decimal (c : N) (d : Z) : Prop := exists zero, In zero nd_zeros /\ (0 <= d <= 9)%Z /\ Z.of_N c = (Z.of_N zero + d)%Z.
Inductive number_text : str -> Z -> Prop :=
| N_digit c d : decimal c d -> number_text [c] d
| N_more s v c d : number_text s v -> decimal c d -> number_text (s ++ [c]) (10 * v + d)
| N_under s v c d : number_text s v -> decimal c d -> number_text (s ++ u "_" ++ [c]) (10 * v + d).
Definition python_integer (s : str) (z : Z) : Prop :=
  exists before sign digits after v, s = before ++ sign ++ digits ++ after /\ blank before /\ blank after /\ number_text digits v /\
    ((sign = [] \/ sign = u "+") /\ z = v \/ sign = u "-" /\ z = (- v)%Z).

(** No digit is in two blocks. *)
Lemma blocks_apart : forallb (fun z => forallb (fun z' => (z =? z') || (z + 9 <? z') || (z' + 9 <? z))%N nd_zeros) nd_zeros = true.
Proof. vm_compute. reflexivity. Qed.
Lemma digit_of_iff c d : digit_of c = Some d <-> decimal c d.
Proof.
  unfold digit_of, decimal. split.
  - destruct (find _ nd_zeros) as [z|] eqn:E; [|discriminate]. intros [= <-]. apply find_some in E as [Hz E]. apply andb_true_iff in E as [E1 E2]. apply N.leb_le in E1, E2.
    exists z. split; [exact Hz|]. lia.
  - intros (z & Hz & Hd & E). destruct (find _ nd_zeros) as [z'|] eqn:F.
    + apply find_some in F as [Hz' F]. apply andb_true_iff in F as [F1 F2]. apply N.leb_le in F1, F2.
      pose proof blocks_apart as B. rewrite forallb_forall in B. specialize (B z Hz). rewrite forallb_forall in B. specialize (B z' Hz').
      apply orb_true_iff in B as [B|B]; [apply orb_true_iff in B as [B|B]|]; [apply N.eqb_eq in B; subst; f_equal; lia|apply N.ltb_lt in B; lia|apply N.ltb_lt in B; lia].
    + exfalso. eapply find_none in F; [|exact Hz]. cbn beta in F. apply andb_false_iff in F. rewrite !N.leb_gt in F. lia.
Qed.
Lemma decimal_not c d : decimal c d -> is_space c = false /\ c <> 95%N /\ c <> 45%N /\ c <> 43%N.
Proof.
  intros (z & Hz & Hd & E).
  assert (B : forallb (fun z => forallb (fun k => negb (is_space (z + k)%N) && negb (N.eqb (z + k) 95) && negb (N.eqb (z + k) 45) && negb (N.eqb (z + k) 43)) [0;1;2;3;4;5;6;7;8;9]%N) nd_zeros = true) by (vm_compute; reflexivity).
  rewrite forallb_forall in B. specialize (B z Hz). rewrite forallb_forall in B. assert (Ec : c = (z + Z.to_N d)%N) by lia.
  assert (K : In (Z.to_N d) [0;1;2;3;4;5;6;7;8;9]%N). { cbn. assert (d = 0 \/ d = 1 \/ d = 2 \/ d = 3 \/ d = 4 \/ d = 5 \/ d = 6 \/ d = 7 \/ d = 8 \/ d = 9)%Z as K by lia. intuition (subst; auto 12). }
  specialize (B _ K). rewrite <- Ec in B. rewrite !andb_true_iff, !negb_true_iff, !N.eqb_neq in B. tauto.
Qed.

Lemma int_digits_sound s : forall q acc z, number_text q acc ->
  (int_digits s acc true = Some z -> number_text (q ++ s) z) /\ (int_digits s acc false = Some z -> number_text (q ++ u "_" ++ s) z).
Proof.
  induction s as [|c s IH]; intros q acc z Hq; cbn [int_digits].
  - split; [intros [= <-]; rewrite app_nil_r; exact Hq|discriminate].
  - destruct (N.eqb_spec c 95) as [->|Hc].
    + split; [intros H; exact (proj2 (IH q acc z Hq) H)|discriminate].
    + destruct (digit_of c) as [d|] eqn:E; [|split; discriminate]. apply digit_of_iff in E. replace (acc * 10 + d)%Z with (10 * acc + d)%Z by lia.
      split; intros H.
      * replace (q ++ c :: s) with ((q ++ [c]) ++ s) by (rewrite <- app_assoc; reflexivity). exact (proj1 (IH _ _ _ (N_more _ _ _ _ Hq E)) H).
      * replace (q ++ u "_" ++ c :: s) with ((q ++ u "_" ++ [c]) ++ s) by (rewrite <- !app_assoc; reflexivity). exact (proj1 (IH _ _ _ (N_under _ _ _ _ Hq E)) H).
Qed.
Lemma int_digits_complete s z : number_text s z -> forall rest, int_digits (s ++ rest) 0 false = int_digits rest z true.
Proof.
  assert (S : forall c d b acc rest, decimal c d -> int_digits (c :: rest) acc b = int_digits rest (10 * acc + d) true).
  { intros c d b acc rest H. cbn [int_digits]. destruct (decimal_not _ _ H) as (_ & H1 & _). destruct (N.eqb_spec c 95); [contradiction|].
    apply digit_of_iff in H. rewrite H. f_equal. lia. }
  intros H. induction H as [c d H|s v c d _ IH H|s v c d _ IH H]; intros rest.
  - cbn [app]. rewrite (S c d) by exact H. f_equal.
  - rewrite <- app_assoc, IH. cbn [app]. apply S, H.
  - rewrite <- app_assoc, IH. change ((u "_" ++ [c]) ++ rest) with (95%N :: c :: rest). cbn [int_digits N.eqb Pos.eqb]. change (int_digits (c :: rest) v false = int_digits rest (10 * v + d) true). apply S, H.
Qed.
Lemma int_digits_iff s z : int_digits s 0 false = Some z <-> number_text s z.
Proof.
  split.
  - destruct s as [|c s]; [discriminate|]. cbn [int_digits]. destruct (N.eqb_spec c 95) as [->|Hc]; [discriminate|]. destruct (digit_of c) as [d|] eqn:E; [|discriminate].
    apply digit_of_iff in E. intros H. exact (proj1 (int_digits_sound s [c] d z (N_digit c d E)) H).
  - intros H. rewrite <- (app_nil_r s), (int_digits_complete s z H []). reflexivity.
Qed.
Lemma number_ends s z : number_text s z -> exists c p q d, s = c :: p /\ s = q ++ [d] /\ (exists v, decimal c v) /\ exists v, decimal d v.
Proof.
  intros H. induction H as [c d H|s v c d _ IH H|s v c d _ IH H].
  - exists c, [], [], c. eauto 6.
  - destruct IH as (c0 & p & q & d0 & E & _ & H0 & _). exists c0, (p ++ [c]), s, c. rewrite E. eauto 6.
  - destruct IH as (c0 & p & q & d0 & E & _ & H0 & _). exists c0, (p ++ u "_" ++ [c]), (s ++ u "_"), c. split; [rewrite E; reflexivity|]. split; [rewrite <- app_assoc; reflexivity|]. eauto.
Qed.
Lemma strip_split s : exists before after, s = before ++ strip s ++ after /\ blank before /\ blank after.
Proof.
  unfold strip, lstrip, rstrip. destruct (drop_while_split is_space s) as (a & E & Ha & _). destruct (rdrop_while_split is_space (drop_while is_space s)) as (b & E' & Hb & _).
  exists a, b. split; [|split; [exact Ha|exact Hb]]. rewrite <- E'. exact E.
Qed.
Lemma py_int_iff s z : py_int s = Some z <-> python_integer s z.
Proof.
  unfold py_int. split.
  - intros H. destruct (strip_split s) as (b & a & E & Hb & Ha). destruct (strip s) as [|c t]; [discriminate H|].
    destruct (N.eqb_spec c 45) as [->|H45]; [|destruct (N.eqb_spec c 43) as [->|H43]].
    + destruct (int_digits t 0 false) as [v|] eqn:Ev; [|discriminate H]. injection H as <-. apply int_digits_iff in Ev.
      exists b, (u "-"), t, a, v. split; [exact E|]. auto 6.
    + apply int_digits_iff in H. exists b, (u "+"), t, a, z. split; [exact E|]. auto 8.
    + apply int_digits_iff in H. exists b, [], (c :: t), a, z. split; [exact E|]. auto 8.
  - intros (b & sg & ds & a & v & -> & Hb & Ha & Hv & Hs). destruct (number_ends _ _ Hv) as (c & p & q & d & E1 & E2 & (x & Hc) & (y & Hd)).
    destruct (decimal_not _ _ Hc) as (C1 & C2 & C3 & C4). destruct (decimal_not _ _ Hd) as (D1 & _).
    apply int_digits_iff in Hv. destruct Hs as [[[->| ->] ->]|[-> ->]].
    + cbn [app]. rewrite (strip_between b ds a c d p); try assumption; [|eauto]. rewrite E1 in *. destruct (N.eqb_spec c 45); [contradiction|]. destruct (N.eqb_spec c 43); [contradiction|]. exact Hv.
    + change (u "+" ++ ds ++ a) with ((43%N :: ds) ++ a). assert (X : strip (b ++ (43%N :: ds) ++ a) = 43%N :: ds) by (apply (strip_between b (43%N :: ds) a 43%N d ds); [exact Hb|exact Ha|reflexivity|exists (43%N :: q); rewrite E2; reflexivity|reflexivity|exact D1]).
      rewrite X. exact Hv.
    + change (u "-" ++ ds ++ a) with ((45%N :: ds) ++ a). assert (X : strip (b ++ (45%N :: ds) ++ a) = 45%N :: ds) by (apply (strip_between b (45%N :: ds) a 45%N d ds); [exact Hb|exact Ha|reflexivity|exists (45%N :: q); rewrite E2; reflexivity|reflexivity|exact D1]).
      rewrite X. cbn [N.eqb Pos.eqb]. rewrite Hv. reflexivity.
Qed.

(** What the value of an integer and a boolean fact is, for all texts; every other text is refused with a
    ValueError. *)
Theorem C62_integer_exact {F} (float_of : str -> option F) data_type text : is_integer data_type = true ->
  (forall z, get_value float_of data_type text = Ok (VInt z) <-> python_integer text z) /\
  ((forall z, ~ python_integer text z) -> get_value float_of data_type text = Raise ValueError).
Proof.
  intros H. unfold get_value. rewrite H. unfold fact_int. split.
  - intros z. rewrite <- py_int_iff. destruct (py_int text) as [v|]; cbn [bind]; split; intros E; try discriminate E; injection E as ->; reflexivity.
  - intros N. destruct (py_int text) as [v|] eqn:E; [|reflexivity]. apply py_int_iff in E. destruct (N v E).
Qed.
Theorem C62_boolean_exact {F} (float_of : str -> option F) data_type text : is_boolean data_type = true ->
  (forall b, get_value float_of data_type text = Ok (VBool b) <-> in_any_case text (if b then word_true else word_false)) /\
  ((forall b : bool, ~ in_any_case text (if b then word_true else word_false)) -> get_value float_of data_type text = Raise ValueError).
Proof.
  intros H. pose proof (C46_coherent data_type) as (C1 & _ & C3). unfold get_value.
  assert (N1 : is_numeric data_type = false) by exact (proj1 (C3 H)).
  assert (N2 : is_integer data_type = false) by (destruct (is_integer data_type); [rewrite C1 in N1 by reflexivity; discriminate N1|reflexivity]).
  rewrite N2, N1, H. split.
  - intros b. rewrite <- C62_boolean_iff. destruct (fact_bool text) as [v|]; cbn [bind]; split; intros E; try discriminate E; injection E as ->; reflexivity.
  - intros N. destruct (fact_bool text) as [v|e] eqn:E; [apply C62_boolean_iff in E; destruct (N v E)|]. cbn [bind]. unfold fact_bool in E.
    destruct (str_eqb _ _); [discriminate E|]. destruct (str_eqb _ _); [discriminate E|]. injection E as <-. reflexivity.
Qed.

(** "1" and "0" are booleans of XML Schema and refused. *)
Theorem C62_boolean_refuted : ~ forall (float_of : str -> option Z) text b, boolean_text text b ->
  get_value float_of (u "xbrli:booleanItemType") text = Ok (VBool b).
Proof.
  intros H. specialize (H (fun _ => None) (u "1") true). vm_compute in H.
  assert (E := H ltac:(left; split; [right|]; reflexivity)). discriminate E.
Qed.

(** Texts that are no integers of XML Schema are read as integers: underscores and the digits of
    other scripts are. *)
Theorem C62_integer_refuted : ~ forall (float_of : str -> option Z) text z,
  get_value float_of (u "xbrli:integerItemType") text = Ok (VInt z) -> integer_text text z.
Proof.
  intros H. specialize (H (fun _ => None) (u "1_000") 1000%Z).
  assert (E : get_value (fun _ : str => @None Z) (u "xbrli:integerItemType") (u "1_000") = Ok (VInt 1000%Z))
    by (vm_compute; reflexivity).
  apply H in E as (b & s & ds & a & E & Hb & Ha & Hn & Hd & Hs).
  assert (I : In 95%N (b ++ s ++ ds ++ a)) by (rewrite <- E; vm_compute; auto).
  rewrite !in_app_iff in I. unfold blank in Hb, Ha. unfold all_digits in Hd. rewrite forallb_forall in Hb, Ha, Hd.
  destruct I as [I|[I|[I|I]]].
  - apply Hb in I. vm_compute in I. discriminate I.
  - destruct Hs as [[[->| ->] _]|[-> _]]; vm_compute in I; intuition discriminate.
  - apply Hd in I. vm_compute in I. discriminate I.
  - apply Ha in I. vm_compute in I. discriminate I.
Qed.

Example C62_example (float_of : str -> option Z) :
  get_value float_of (u "xbrli:integerItemType") (u " -42 ") = Ok (VInt (-42)%Z) /\
  integer_text (u " -42 ") (-42)%Z /\
  get_value float_of (u "xbrli:booleanItemType") (u "false") = Ok (VBool false) /\
  get_value float_of (u "xbrli:stringItemType") (u "42") = Ok (VText (u "42")).
Proof.
  split; [vm_compute; reflexivity|]. split; [|split; reflexivity].
  exists (u " "), (u "-"), (u "42"), (u " "). repeat split; try discriminate. right. split; reflexivity.
Qed.

Print Assumptions C62_value_partial.
Print Assumptions C62_kind.
Print Assumptions C62_boolean_iff.
Print Assumptions C62_integer_exact.
Print Assumptions C62_boolean_exact.
Print Assumptions C62_boolean_refuted.
Print Assumptions C62_integer_refuted.
