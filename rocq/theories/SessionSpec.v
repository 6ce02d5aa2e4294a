(** When more documents can be fetched than before (C112). *)
From Verif Require Import Base DtsModel.

(** Everything that could be fetched in [w] can be fetched in [w'], with the same text; the libraries and the
    order of sets are the same. *)
Record more_available {tree} (w w' : world tree) : Prop := {
  ma_join : w_urljoin w = w_urljoin w';
  ma_path : w_path w = w_path w';
  ma_parse : w_parse w = w_parse w';
  ma_order : w_order w = w_order w';
  ma_remote : forall v text, w_remote w v = Some text -> w_remote w' v = Some text;
  ma_local : forall p text, w_local w p = Some text -> w_local w' p = Some text }.

(** The path of a local URI has the file name of the URI (it has no query or fragment). *)
Definition names_kept {tree} (w : world tree) : Prop :=
  forall v, is_http v = false -> uri_to_filename (w_path w v) = uri_to_filename v.

(** Two openings give the same filing and leave the same files, or raise the same exception. *)
Definition same_opening {A} (x y : res (A * list (str * str))) : Prop :=
  match x, y with
  | Ok (f, k), Ok (f', k') => f = f' /\ forall name, dict_get str_eqb k name = dict_get str_eqb k' name
  | Raise e, Raise e' => e = e'
  | _, _ => False
  end.
