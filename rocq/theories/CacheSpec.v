(** What it means that the cache is as good as the documents themselves (C110). *)
From Verif Require Import Base DtsModel DtsLoad.

(** The same world without network and disk: every document must be in the cache. *)
Definition offline {tree} (w : world tree) : world tree :=
  World (w_urljoin w) (w_path w) (fun _ => None) (fun _ => None) (w_parse w) (w_order w).

(** What earlier sessions have left in the cache for the documents of [U] is what these say now. *)
Definition up_to_date {tree} (w : world tree) (U : list str) (cached : list (str * str)) : Prop :=
  forall v text, In v U -> dict_get str_eqb cached (uri_to_filename v) = Some text -> document w v = Some text.
