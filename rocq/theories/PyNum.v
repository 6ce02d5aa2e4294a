(** Python's [int(str)] and [str(int)], shared by several models. *)
From Verif Require Import Base.

(** First code point of each block of ten decimal digits (Unicode category Nd, version 14,
    Python 3.11); each block is contiguous. *)
Definition nd_zeros : list N := [48; 1632; 1776; 1984; 2406; 2534; 2662; 2790; 2918; 3046; 3174; 3302; 3430;
  3558; 3664; 3792; 3872; 4160; 4240; 6112; 6160; 6470; 6608; 6784; 6800; 6992; 7088; 7232; 7248; 42528;
  43216; 43264; 43472; 43504; 43600; 44016; 65296; 66720; 68912; 69734; 69872; 69942; 70096; 70384; 70736;
  70864; 71248; 71360; 71472; 71904; 72016; 72784; 73040; 73120; 92768; 92864; 93008; 120782; 120792;
  120802; 120812; 120822; 123200; 123632; 125264; 130032]%N.

Definition digit_of (c : N) : option Z :=
  match find (fun z => (z <=? c) && (c <=? z + 9))%N nd_zeros with
  | Some z => Some (Z.of_N (c - z))
  | None => None
  end.

(** Digits with single underscores between digits, as accepted by [int]. *)
Fixpoint int_digits (s : str) (acc : Z) (prev_digit : bool) : option Z :=
  match s with
  | [] => if prev_digit then Some acc else None
  | c :: t =>
      if N.eqb c 95 then (if prev_digit then int_digits t acc false else None)
      else match digit_of c with
           | Some d => int_digits t (acc * 10 + d)%Z true
           | None => None
           end
  end.

(** [int(s)] for a string; [None] is [ValueError].  (The limit of 4300 digits of CPython's
    [int] is not modelled.) *)
Definition py_int (s : str) : option Z :=
  match strip s with
  | [] => None
  | c :: t =>
      if N.eqb c 45 then option_map Z.opp (int_digits t 0 false)
      else if N.eqb c 43 then int_digits t 0 false
      else int_digits (c :: t) 0 false
  end.

(** Decimal digits of a natural number, most significant first, without leading zeros. *)
Fixpoint dec_digits_fuel (fuel : nat) (n : Z) (acc : str) : str :=
  match fuel with
  | O => acc
  | S f =>
      let acc' := (48 + Z.to_N (n mod 10))%N :: acc in
      if (n <? 10)%Z then acc' else dec_digits_fuel f (n / 10)%Z acc'
  end.

(** [str(n)] for an integer. *)
Definition z_to_str (n : Z) : str :=
  let m := Z.abs n in
  let ds := dec_digits_fuel (S (Z.to_nat (Z.log2 m))) m [] in
  if (n <? 0)%Z then 45%N :: ds else ds.
