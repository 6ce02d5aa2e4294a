(** Text of inline facts: continuation chains, relevant content, escaping.
    CC = /repo/brel/parsers/XHMTL/elements/parse_continuation_chain.py,
    NN = /repo/brel/parsers/XHMTL/elements/parse_non_numeric.py,
    LU = /repo/brel/parsers/utils/lxml_utils.py. *)
From Verif Require Import Base.
Local Open Scope nat_scope.

(** ** lxml elements *)

(** An element with its tag in prefix:localname notation (what LU 90-97 get_prefix_localname_tag
    computes from the namespaces in scope), attributes, text, children and tail.  [remark] marks
    comments and processing instructions, which lxml lists among the children; their tag is a
    Python function, so get_prefix_localname_tag raises a TypeError for them. *)
Inductive xml :=
  Node (remark : bool) (tag : str) (attrs : list (str * str)) (text : option str) (kids : list xml)
       (tail : option str).
Definition x_remark (e : xml) := let 'Node r _ _ _ _ _ := e in r.
Definition x_tag (e : xml) := let 'Node _ t _ _ _ _ := e in t.
Definition x_text (e : xml) := let 'Node _ _ _ t _ _ := e in t.
Definition x_kids (e : xml) := let 'Node _ _ _ _ k _ := e in k.
Definition x_tail (e : xml) := let 'Node _ _ _ _ _ t := e in t.
Definition set_text (e : xml) (x : option str) := let 'Node r t a _ k l := e in Node r t a x k l.
Definition set_tail (e : xml) (x : option str) := let 'Node r t a s k _ := e in Node r t a s k x.
Definition set_kids (e : xml) (x : list xml) := let 'Node r t a s _ l := e in Node r t a s x l.

(** LU 181-188 clone_element_without_children: deep copy (with text and tail), children removed
    (lxml removes a child together with its tail). *)
Definition clone_element_without_children (e : xml) : xml := set_kids e [].

(** [x + y] where [x] may be None, set to "" first (CC 130-133, 135-138) *)
Definition plus_text (x : option str) (t : str) : option str :=
  Some (match x with Some x => x ++ t | None => t end).

Fixpoint on_last (f : xml -> xml) (l : list xml) : list xml :=
  match l with
  | [] => []
  | [x] => [f x]
  | x :: l' => x :: on_last f l'
  end.

(** CC 125-138 append_text_to_parent *)
Definition append_text_to_parent (parent : xml) (text : option str) : xml :=
  match text with
  | None => parent
  | Some t =>
      match x_kids parent with
      | [] => set_text parent (plus_text (x_text parent) t)
      | kids => set_kids parent (on_last (fun c => set_tail c (plus_text (x_tail c) t)) kids)
      end
  end.

(** [parent.append(child)]: the child moves with its tail.  Appending the children of another
    element one by one while iterating over it visits all of them (lxml's child iterator computes
    the next sibling before handing out an element). *)
Definition append_kids (parent : xml) (l : list xml) : xml := set_kids parent (x_kids parent ++ l).

(** CC 141-164 extract_relevant_content_per_element *)
Fixpoint extract_relevant_content_per_element (e : xml) : res xml :=
  let 'Node _ _ _ _ kids _ := e in
  (fix go (kids : list xml) (acc : xml) : res xml :=
     match kids with
     | [] => Ok acc
     | child :: rest =>
         if x_remark child then Raise TypeError
         else if str_eqb (x_tag child) (u "ix:exclude") then go rest (append_text_to_parent acc (x_tail child))
         else
           do! rc <- extract_relevant_content_per_element child ;
           if starts_with (u "ix:") (x_tag child) then
             go rest (append_text_to_parent (append_kids (append_text_to_parent acc (x_text rc)) (x_kids rc))
                                            (x_tail rc))
           else go rest (append_kids acc [rc])
     end) kids (clone_element_without_children e).

(** CC 167-177 merge_relevant_content *)
Definition merge_relevant_content (els : list xml) : res xml :=
  match els with
  | [] => Raise IndexError
  | e0 :: _ =>
      Ok (fold_left (fun m e => append_kids (append_text_to_parent m (x_text e)) (x_kids e)) els
                    (set_text (clone_element_without_children e0) None))
  end.

(** CC 180-187 *)
Definition extract_relevant_content_from_continuation_chain (chain : list xml) : res xml :=
  do! l <- map_res extract_relevant_content_per_element chain ; merge_relevant_content l.

(** NN 60-69 extract_text_content *)
Fixpoint extract_text_content (e : xml) : str :=
  let 'Node _ _ _ text kids _ := e in
  (match text with Some t => t | None => [] end) ++
  concat (map (fun c => extract_text_content c ++ match x_tail c with Some t => t | None => [] end) kids).

(** ** Escaping *)

(** [text.replace(c, r)] for a one-character [c] *)
Definition replace1 (c : N) (r : str) (s : str) : str :=
  concat (map (fun x => if N.eqb x c then r else [x]) s).

(** NN 21-27 *)
Definition snippets_to_replace : list (N * str) :=
  [(ch "&", u "&amp;"); (ch "<", u "&lt;"); (ch ">", u "&gt;"); (34%N, u "&quot;"); (ch "'", u "&apos;")].
(** NN 20-32 convert_escaped_characters *)
Definition convert_escaped_characters (text : str) : str :=
  fold_left (fun t p => replace1 (fst p) (snd p) t) snippets_to_replace text.

(** NN 35-43 convert_escaped_characters_recursive *)
Fixpoint convert_escaped_characters_recursive (e : xml) : xml :=
  let 'Node r t a text kids tail := e in
  Node r t a (option_map convert_escaped_characters text) (map convert_escaped_characters_recursive kids)
       (option_map convert_escaped_characters tail).

(** NN 46-57 escape_content; [tostring] is etree.tostring(child).decode(), which includes the
    child's tail. *)
Definition escape_content (tostring : xml -> str) (content : xml) : str :=
  let c := convert_escaped_characters_recursive content in
  (match x_text c with Some t => t | None => [] end) ++ concat (map tostring (x_kids c)).

(** A serialiser for examples: text and tail with the markup characters escaped, as every XML
    serialiser does; attributes, namespace declarations and non-ASCII character references are
    left out. *)
Definition xml_escape (s : str) : str :=
  replace1 (ch ">") (u "&gt;") (replace1 (ch "<") (u "&lt;") (replace1 (ch "&") (u "&amp;") s)).
Fixpoint plain_tostring (e : xml) : str :=
  let 'Node _ tag _ text kids tail := e in
  u "<" ++ tag ++ u ">" ++ (match text with Some t => xml_escape t | None => [] end) ++
  concat (map plain_tostring kids) ++ u "</" ++ tag ++ u ">" ++
  (match tail with Some t => xml_escape t | None => [] end).

(** NN 91-111: value of a non-numeric fact before its format is applied, with the recorded errors.
    [escape] is the attribute. *)
Definition non_numeric_value (tostring : xml -> str) (escape : option str) (fact : xml) (chain : list xml)
  : res (str * log) :=
  let '(esc, errs) :=
    match escape with
    | Some (c :: s) =>
        if str_eqb (c :: s) (u "true") || str_eqb (c :: s) (u "false") then (str_eqb (c :: s) (u "true"), [])
        else (true, ["IXBRL_INVALID_NON_NUMERIC_FACT_ESCAPE_ATTRIBUTE_VALUE"%string])
    | _ => (false, [])
    end in
  do! content <- extract_relevant_content_from_continuation_chain (fact :: chain) ;
  Ok (if esc : bool then escape_content tostring content else extract_text_content content, errs).

(** ** Building the chains *)

(** An element as far as the chains are concerned: its identity, tag (prefix:localname), the
    attributes id and continuedAt, and the identities of those descendants that CC 103
    iterdescendants("{*}continuation", element.tag) yields. *)
Record celem := CElem {
  ce_key : nat; ce_tag : str; ce_id : option str; ce_cont : option str; ce_desc : list nat }.

Inductive cerr :=
| WithoutId (e : nat)                       (* IXBRL_CONTINUATION_WITHOUT_ID *)
| DuplicateId (e : nat) (id : str)          (* IXBRL_DUPLICATE_ELEMENT_ID *)
| Reused (e : nat) (id : str)               (* IXBRL_REUSED_CONTINUATION *)
| InvalidId (e : nat) (id : str)            (* IXBRL_INVALID_CONTINUATION_ID *)
| InvalidDescendant (e : nat) (parent : option str)   (* IXBRL_INVALID_DESCENDANT_IN_CONTINUATION_CHAIN *)
| Unused (ids : list str).                  (* IXBRL_UNUSED_CONTINUATION_ELEMENTS *)

Definition smem (s : str) (l : list str) : bool := existsb (str_eqb s) l.

(** CC 18-40: the checks; sets of strings are lists *)
Definition check_continuation_ids (conts : list celem) (taken : list str) : list cerr * list str :=
  fold_left (fun '(errs, taken) e =>
    match ce_id e with
    | None => (errs ++ [WithoutId (ce_key e)], taken)
    | Some id => (errs ++ (if smem id taken then [DuplicateId (ce_key e) id] else []), id :: taken)
    end) conts ([], taken).
(** CC 42-46: dict comprehension, a later element replaces an earlier one with the same id *)
Definition continuation_index (conts : list celem) : list (str * celem) :=
  fold_left (fun d e => match ce_id e with Some id => dict_set str_eqb d id e | None => d end) conts [].

(** CC 73-96: the while loop; [None] when the fuel does not suffice *)
Fixpoint chain_loop (fuel : nat) (index : list (str * celem)) (e : celem) (continued_at : option str)
  (chain : list celem) (used : list str) (errs : list cerr) : option (list celem * list str * list cerr) :=
  match continued_at with
  | None => Some (chain, used, errs)
  | Some id =>
      match fuel with
      | O => None
      | S fuel =>
          let errs := errs ++ (if smem id used then [Reused (ce_key e) id] else []) in
          match dict_get str_eqb index id with
          | None => Some (chain, used, errs ++ [InvalidId (ce_key e) id])
          | Some c => chain_loop fuel index e (ce_cont c) (chain ++ [c]) (id :: used) errs
          end
      end
  end.

(** CC 70-98 *)
Fixpoint chains_loop (fuel : nat) (index : list (str * celem)) (els : list celem)
  (chains : list (celem * list celem)) (used : list str) (errs : list cerr)
  : option (list (celem * list celem) * list str * list cerr) :=
  match els with
  | [] => Some (chains, used, errs)
  | e :: els' =>
      match chain_loop fuel index e (ce_cont e) [] used errs with
      | None => None
      | Some (chain, used, errs) => chains_loop fuel index els' (chains ++ [(e, chain)]) used errs
      end
  end.

Definition key_in (k : nat) (l : list celem) : bool := existsb (fun e => Nat.eqb k (ce_key e)) l.
(** CC 100-110 *)
Definition descendant_errors (chains : list (celem * list celem)) : list cerr :=
  concat (map (fun p =>
    let whole := fst p :: snd p in
    concat (map (fun e => map (fun d => InvalidDescendant d (ce_id e))
                              (filter (fun d => key_in d whole) (ce_desc e))) whole)) chains).

(** CC 51-122 create_continuation_chains.  The elements of CC 66 are distinct objects, so the
    dictionary of chains is a list of pairs.  [None]: the loop of CC 74 does not end within [fuel]
    rounds.  The set difference of CC 113 is reported in the order of the index. *)
Definition create_continuation_chains (fuel : nat) (facts footnotes conts : list celem) (taken : list str)
  : option (list (celem * list celem) * list cerr * list str) :=
  let '(errs0, taken) := check_continuation_ids conts taken in
  let index := continuation_index conts in
  let els := filter (fun e => contains (u "nonNumeric") (ce_tag e)) facts ++ footnotes in
  match chains_loop fuel index els [] [] errs0 with
  | None => None
  | Some (chains, used, errs) =>
      let unused := filter (fun id => negb (smem id used)) (dict_keys index) in
      Some (chains, errs ++ descendant_errors chains ++ (match unused with [] => [] | _ => [Unused unused] end), taken)
  end.
