(** What a number element says (C64): its accuracy, and its value when it has no format. *)
From Coq Require Import QArith.
From Verif Require Import Base PyNum NumModel NumSpec NumProofs NumProps CtxModel InlineModel InlineSpec InlineProps.
Local Open Scope nat_scope.

(** The accuracy that an attribute states: a whole number, or "INF" *)
Inductive states (x : xml) (name : string) : option decimals -> Prop :=
| st_number t z : attr x (u name) = Some t -> py_int t = Some z -> states x name (Some (Finite z))
| st_infinite : attr x (u name) = Some (u "INF") -> states x name (Some Infinite)
| st_absent : attr x (u name) = None -> states x name None
| st_bad t : attr x (u name) = Some t -> py_int t = None -> t <> u "INF" -> states x name None.
Theorem C64_accuracy x name d : decimals_of x name = d <-> states x name d.
Proof.
  assert (I : py_int (u "INF") = None) by (vm_compute; reflexivity).
  unfold decimals_of, parse_decimals_or_precision. destruct (attr x (u name)) as [t|] eqn:E.
  - destruct (py_int t) as [z|] eqn:P.
    + split; [intros <-; econstructor; eauto|]. intros H. inversion H; subst; congruence.
    + destruct (str_eqb_spec t (u "INF")) as [K|K].
      * split; [intros <-; apply st_infinite; rewrite E, K; reflexivity|]. intros H. inversion H; subst; congruence.
      * split; [intros <-; eapply st_bad; eauto|]. intros H. inversion H; subst; congruence.
  - split; [intros <-; apply st_absent; exact E|]. intros H. inversion H; subst; congruence.
Qed.
Example C64_example_accuracy : states (Xml (Some (u "ix:nonFraction")) [(u "decimals", u "INF")] [] None []) "decimals" (Some Infinite).
Proof. apply st_infinite. vm_compute. reflexivity. Qed.

(** Without a format (or with an empty one), a text that is a number and not a negative one is read like one with a decimal point. *)
Theorem C64_plain_number py_float n v t a b z :
  number_is py_float n v -> ~ is_nil (n_el n) ->
  x_text (n_el n) = Some t -> (attr (n_el n) (u "format") = None \/ attr (n_el n) (u "format") = Some []) -> py_float t = Some false ->
  written 46 (u ", ") (strip t) a b -> scale_is (n_el n) z -> ~ (shown a b == 0)%Q ->
  (attr (n_el n) (u "sign") = Some (u "-") -> exists w, v = u "-" ++ w /\ numeral w (shown a b * Qpower 10 z)%Q) /\
  (attr (n_el n) (u "sign") <> Some (u "-") -> numeral v (shown a b * Qpower 10 z)%Q).
Proof.
  intros Hv Hn Ht Hf Hp Hw Hz Hnz.
  assert (Hx : shows_text n = true) by (unfold shows_text; rewrite Ht; reflexivity).
  assert (v = number_value py_float n) as ->.
  { destruct Hv as [H|[H _]|_ _|_ H _]; [contradiction|congruence|reflexivity|congruence]. }
  assert (Hin : In (u "ixt:num-dot-decimal", (46%N, u ", ")) separator_formats) by (left; reflexivity).
  unfold number_value, process_non_fraction_value. rewrite Ht.
  assert (Hsc : exists sc, py_int sc = Some z /\ match NumModel.truthy (attr (n_el n) (u "scale")) with Some s => s | None => [48%N] end = sc).
  { unfold scale_is in Hz. destruct (attr (n_el n) (u "scale")) as [[|c0 sc]|].
    - destruct Hz as [Hz _]. congruence.
    - exists (c0 :: sc). split; [apply Hz|]. reflexivity.
    - subst z. exists [48%N]. split; reflexivity. }
  destruct Hsc as (sc & Hpi & ->).
  destruct (C02_number_as_shown _ _ _ t a b sc z Hin Hw Hpi Hnz) as (out & Hout & Hnum).
  assert (Ef : NumModel.truthy (attr (n_el n) (u "format")) = None) by (destruct Hf as [-> | ->]; reflexivity). rewrite Ef, Hp, Hout.
  destruct (attr (n_el n) (u "sign")) as [[|c g]|].
  - split; [intros K; discriminate K|]. intros _. exact Hnum.
  - cbn [NumModel.truthy]. destruct (str_eqb_spec (c :: g) (u "-")) as [K|K].
    + rewrite K. change (str_eqb (u "-") (u "-")) with true. cbn [fst]. split; [|intros N; congruence]. intros _. exists out. split; [reflexivity|exact Hnum].
    + cbn [fst]. split; [intros N; exfalso; apply K; congruence|]. intros _. exact Hnum.
  - split; [intros K; discriminate K|]. intros _. exact Hnum.
Qed.
Example C64_example_plain : let x := Xml (Some (u "ix:nonFraction")) [(u "scale", u "2"); (u "sign", u "-")] [] (Some (u "1,234.5")) [] in
  fst (process_non_fraction_value (fun _ => Some false) (x_text x) (attr x (u "format")) (attr x (u "scale")) (attr x (u "sign"))) = u "-123450" /\
  written 46 (u ", ") (strip (u "1,234.5")) (u "1,234") (u "5") /\ ~ (shown (u "1,234") (u "5") == 0)%Q.
Proof. split; [vm_compute; reflexivity|]. split; [vm_compute; auto|]. vm_compute. discriminate. Qed.

Print Assumptions C64_accuracy.
Print Assumptions C64_plain_number.
