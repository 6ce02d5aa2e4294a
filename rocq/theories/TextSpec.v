(** Specification of the text of facts, independent of the model's functions. *)
From Verif Require Import Base TextModel.
Local Open Scope nat_scope.

(** ** Documents as token streams *)

Inductive token :=
| TStart (tag : str) (attrs : list (str * str))
| TEnd
| TChar (c : N)
| TRemark.

Definition chars (o : option str) : list token := match o with Some s => map TChar s | None => [] end.
Fixpoint tokens (e : xml) : list token :=
  let 'Node remark tag attrs text kids tail := e in
  (if remark then [TRemark]
   else TStart tag attrs :: chars text ++ concat (map tokens kids) ++ [TEnd]) ++ chars tail.
(** What is inside an element. *)
Definition inside (e : xml) : list token :=
  let 'Node _ _ _ text kids _ := e in chars text ++ concat (map tokens kids).

(** Which tokens are content of a fact, scanning from left to right with the stack of open
    elements: nothing inside ix:exclude counts; of the other ix elements the content counts but
    not the tags. *)
Inductive opened := Excluded | Transparent | Kept.
Definition in_excluded (st : list opened) : bool := match st with Excluded :: _ => true | _ => false end.
Fixpoint content (st : list opened) (ts : list token) : list token :=
  match ts with
  | [] => []
  | TStart tag attrs :: ts =>
      if in_excluded st then content (Excluded :: st) ts
      else if str_eqb tag (u "ix:exclude") then content (Excluded :: st) ts
      else if starts_with (u "ix:") tag then content (Transparent :: st) ts
      else TStart tag attrs :: content (Kept :: st) ts
  | TEnd :: ts =>
      match st with
      | Kept :: st => TEnd :: content st ts
      | _ :: st => content st ts
      | [] => content [] ts
      end
  | TChar c :: ts => if in_excluded st then content st ts else TChar c :: content st ts
  | TRemark :: ts => if in_excluded st then content st ts else TRemark :: content st ts
  end.

(** The characters of a token stream. *)
Definition text_of (ts : list token) : str :=
  concat (map (fun t => match t with TChar c => [c] | _ => [] end) ts).

Definition fact_content (parts : list xml) : list token := concat (map (fun e => content [] (inside e)) parts).

(** Comments and processing instructions. *)
Definition has_remark (ts : list token) : bool := existsb (fun t => match t with TRemark => true | _ => false end) ts.

(** ** Entities *)

Definition entities : list (str * N) :=
  [(u "&amp;", ch "&"); (u "&lt;", ch "<"); (u "&gt;", ch ">"); (u "&quot;", 34%N); (u "&apos;", ch "'")].
(** One pass from left to right, replacing entities; [skip] characters are part of an entity
    already read. *)
Fixpoint unescape (skip : nat) (s : str) : str :=
  match s with
  | [] => []
  | c :: s' =>
      match skip with
      | S k => unescape k s'
      | O =>
          match find (fun e => starts_with (fst e) s) entities with
          | Some (p, x) => x :: unescape (length p - 1) s'
          | None => c :: unescape 0 s'
          end
      end
  end.
(** Text without raw markup: a sequence of entities and of characters that are no markup. *)
Inductive escaped : str -> Prop :=
| esc_nil : escaped []
| esc_entity p x s : In (p, x) entities -> escaped s -> escaped (p ++ s)
| esc_char c s : ~ In c (map snd entities) -> escaped s -> escaped (c :: s).

(** ** Chains *)

(** The last of the continuation elements with the given id. *)
Definition target (conts : list celem) (id : str) : option celem :=
  find (fun e => opt_eqb str_eqb (ce_id e) (Some id)) (rev conts).

(** [follows conts o chain dangling]: starting from the reference [o] and following continuedAt
    one meets the elements [chain]; [dangling] is the reference without target at the end, if any. *)
Inductive follows (conts : list celem) : option str -> list celem -> option str -> Prop :=
| f_end : follows conts None [] None
| f_dangling id : target conts id = None -> follows conts (Some id) [] (Some id)
| f_step id c chain d :
    target conts id = Some c -> follows conts (ce_cont c) chain d -> follows conts (Some id) (c :: chain) d.

(** [c] is one of the elements met from [e]. *)
Definition on_chain (conts : list celem) (e c : celem) : Prop :=
  exists chain d, follows conts (ce_cont e) chain d /\ In c chain.
(** The elements that can be continued: facts that are not numbers, and footnotes. *)
Definition continuable (facts footnotes : list celem) : list celem :=
  filter (fun e => contains (u "nonNumeric") (ce_tag e)) facts ++ footnotes.
