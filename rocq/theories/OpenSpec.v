(** Vocabulary of C68-C71. *)
From Verif Require Import Base Regex QNameModel ErrBase ErrModel CtxModel DtsModel DtsSpec OpenModel.

(** A name ends in this extension. *)
Definition has_extension (e q : str) : Prop := exists a, q = a ++ ch "." :: e.
Definition extensions : list str := [u "xml"; u "xhtml"; u "htm"; u "html"; u "xsd"].
Definition supported (q : str) : Prop := exists e, In e extensions /\ has_extension e q.

(** The path of an entry of a folder: with slashes. *)
Definition slashed (path : str) : str :=
  if mem_char (ch "/") path then path else subst_char backslash (ch "/") path.
Definition entry (path name : str) : str := slashed path ++ ch "/" :: name.

(** [inside n p d]: the folder [d] is [n] levels below [p]. *)
Inductive inside (fs : fsys) (p : str) : nat -> str -> Prop :=
| inside_self : inside fs p 0 p
| inside_sub n d name : inside fs p n d -> In name (fs_list fs d) -> fs_isdir fs (entry d name) = true ->
    inside fs p (S n) (entry d name).
(** [q] is an entry of a folder inside [p]. *)
Definition below (fs : fsys) (p q : str) : Prop :=
  exists n d name, inside fs p n d /\ In name (fs_list fs d) /\ q = entry d name.

(** Names in the file system: no slash in a name, no name twice in a folder. *)
Definition plain_names (fs : fsys) : Prop :=
  forall d, NoDup (fs_list fs d) /\ forall name, In name (fs_list fs d) -> ~ In (ch "/") name.
