(** Model of the typed value of a fact: brel/brel_fact.py:78-139.

    Simplifications: a fact is given by its text and by the data type of its concept; [float] is a
    parameter. *)
From Verif Require Import Base PyNum ConceptModel.

(** [str.upper], as far as the comparison with "TRUE" and "FALSE" can tell: apart from the letters
    a to z only U+017F (long s) becomes one of their letters; the other characters that become
    letters of these words become SS, FF, FL, FFL or ST, which do not occur in them. *)
Definition upper_char (c : N) : N :=
  if ((97 <=? c) && (c <=? 122))%N then (c - 32)%N else if N.eqb c 383 then 83%N else c.
Definition upper (s : str) : str := map upper_char s.

(** brel_fact.py:82-92 *)
Definition fact_int (text : str) : res Z :=
  match py_int text with Some z => Ok z | None => Raise ValueError end.
(** brel_fact.py:98-108 *)
Definition fact_float {F} (float_of : str -> option F) (text : str) : res F :=
  match float_of text with Some z => Ok z | None => Raise ValueError end.
(** brel_fact.py:114-126 *)
Definition fact_bool (text : str) : res bool :=
  if str_eqb (upper text) (u "TRUE") then Ok true
  else if str_eqb (upper text) (u "FALSE") then Ok false
  else Raise ValueError.

(** brel_fact.py:128-139 *)
Inductive value (F : Type) := VInt (z : Z) | VFloat (f : F) | VBool (b : bool) | VText (s : str).
Arguments VInt {F}. Arguments VFloat {F}. Arguments VBool {F}. Arguments VText {F}.
Definition get_value {F} (float_of : str -> option F) (data_type text : str) : res (value F) :=
  if is_integer data_type then (do! z <- fact_int text ; Ok (VInt z))
  else if is_numeric data_type then (do! f <- fact_float float_of text ; Ok (VFloat f))
  else if is_boolean data_type then (do! b <- fact_bool text ; Ok (VBool b))
  else Ok (VText text).
