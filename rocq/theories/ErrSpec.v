(** What error recording should do. *)
From Verif Require Import Base ErrBase.

(** [Picked P l r]: [r] consists of the elements of [l] satisfying [P], in the order of [l]. *)
Inductive Picked {A} (P : A -> Prop) : list A -> list A -> Prop :=
| Picked_nil : Picked P [] []
| Picked_keep x l r : P x -> Picked P l r -> Picked P (x :: l) (x :: r)
| Picked_drop x l r : ~ P x -> Picked P l r -> Picked P (x :: l) r.

(** [Renders kw t m]: [m] is the template [t] with every [{name}] replaced by the value given for
    [name], [{{] by [{] and [}}] by [}]. *)
Inductive Renders (kw : list (str * str)) : str -> str -> Prop :=
| Renders_end : Renders kw [] []
| Renders_char c t m : c <> ch "{" -> c <> ch "}" -> Renders kw t m -> Renders kw (c :: t) (c :: m)
| Renders_open t m : Renders kw t m -> Renders kw (u "{{" ++ t) (ch "{" :: m)
| Renders_close t m : Renders kw t m -> Renders kw (u "}}" ++ t) (ch "}" :: m)
| Renders_field n v t m :
    n <> [] -> Forall (fun c => (97 <= c <= 122 \/ 65 <= c <= 90 \/ c = 95)%N) n ->
    In (n, v) kw -> Renders kw t m -> Renders kw (u "{" ++ n ++ u "}" ++ t) (v ++ m).

(** The places in the sources where an error cannot be recorded (file, line). *)
Definition broken_sites : list (string * nat) := [
  ("brel/parsers/XHMTL/elements/parse_hidden.py", 24);
  ("brel/parsers/XHMTL/elements/parse_non_fraction.py", 72);
  ("brel/parsers/XHMTL/elements/parse_references.py", 37);
  ("brel/parsers/XML/characteristics/xml_parse_unit.py", 122);
  ("brel/parsers/XML/xml_context_parser.py", 94);
  ("brel/parsers/XML/xml_facts_parser.py", 135);
  ("brel/parsers/XML/xml_facts_parser.py", 166);
  ("brel/parsers/XML/xml_parse_catalog.py", 35) ]%string.
