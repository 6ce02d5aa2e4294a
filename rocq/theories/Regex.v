(** Backtracking matcher with capture groups: the semantics of Python's [re.match] for the
    constructs that occur in brel's patterns (literals, character classes, greedy repetition of
    a class, optional group, alternation, capture group, end anchor). *)
From Verif Require Import Base.

Inductive citem := CRange (lo hi : N) | CSpace.
Inductive cset := CSet (neg : bool) (items : list citem).

Definition citem_mem (c : N) (i : citem) : bool :=
  match i with
  | CRange lo hi => ((lo <=? c) && (c <=? hi))%N
  | CSpace => is_space c
  end.

Definition cset_mem (cs : cset) (c : N) : bool :=
  match cs with CSet neg items => xorb neg (existsb (citem_mem c) items) end.

Inductive re :=
| REps
| REnd                                   (** [$] without MULTILINE *)
| RLit (s : str)
| RChar (cs : cset)
| RRep (cs : cset) (lo : nat) (hi : option nat)   (** greedy, [x{lo,hi}] *)
| ROpt (r : re)                          (** greedy [r?] *)
| RSeq (r1 r2 : re)
| RAlt (r1 r2 : re)
| RGrp (n : nat) (r : re).

Definition rseq (l : list re) : re := fold_right RSeq REps l.
Fixpoint ralts (l : list re) : re :=
  match l with
  | [] => RChar (CSet false [])
  | [r] => r
  | r :: l' => RAlt r (ralts l')
  end.

Definition caps := list (nat * str).

(** [$] matches at the end and before a final newline. *)
Definition at_end (s : str) : bool :=
  match s with [] => true | [c] => N.eqb c 10 | _ => false end.

Fixpoint strip_prefix (p s : str) : option str :=
  match p, s with
  | [], _ => Some s
  | a :: p', b :: s' => if N.eqb a b then strip_prefix p' s' else None
  | _ :: _, [] => None
  end.

(** Greedy repetition of a class: try one more character first, then continue with [k]. *)
Fixpoint rep {R} (f : N -> bool) (lo : nat) (hi : option nat) (s : str)
  (k : str -> option R) {struct s} : option R :=
  let stop := match lo with O => k s | S _ => None end in
  match hi with
  | Some O => stop
  | _ =>
      match s with
      | [] => stop
      | c :: s' =>
          if f c then
            match rep f (pred lo) (option_map pred hi) s' k with
            | Some r => Some r
            | None => stop
            end
          else stop
      end
  end.

Fixpoint mt {R} (r : re) (s : str) (c : caps) (k : str -> caps -> option R) : option R :=
  match r with
  | REps => k s c
  | REnd => if at_end s then k s c else None
  | RLit p => match strip_prefix p s with Some s' => k s' c | None => None end
  | RChar cs => match s with
                | x :: s' => if cset_mem cs x then k s' c else None
                | [] => None
                end
  | RRep cs lo hi => rep (cset_mem cs) lo hi s (fun s' => k s' c)
  | ROpt r => match mt r s c k with Some x => Some x | None => k s c end
  | RSeq r1 r2 => mt r1 s c (fun s' c' => mt r2 s' c' k)
  | RAlt r1 r2 => match mt r1 s c k with Some x => Some x | None => mt r2 s c k end
  | RGrp n r => mt r s c (fun s' c' => k s' ((n, firstn (length s - length s') s) :: c'))
  end.

(** [re.match(pattern, s)]; every pattern starts with [^], so [re.search] is the same. *)
Definition re_match (r : re) (s : str) : option caps := mt r s [] (fun _ c => Some c).

(** [match.group(n)]: IndexError when the pattern has no such group, [None] when the group
    did not take part in the match. *)
Definition group (ngroups : nat) (c : caps) (n : nat) : res (option str) :=
  if (n <=? ngroups)%nat then Ok (dict_get Nat.eqb c n) else Raise IndexError.
