(** What the documents of a path are (C111). *)
From Verif Require Import Base CtxModel DtsModel DtsSpec DtsLoad.
From Verif Require InlineFilingModel.

Section Documents.
Variable w : world InlineFilingModel.tree.
Variable r : rules.
Variable paths : list str.

(** [t] is the content of a document that can be reached from one of the files. *)
Definition document_of_path (v : str) (t : InlineFilingModel.tree) : Prop :=
  reachable (refers w r) (map (fun x => resolve w r x (u ".")) paths) v /\ loads_as w v t.
(** All of them, each once *)
Definition all_documents (docs : list (str * InlineFilingModel.tree)) : Prop :=
  NoDup (map fst docs) /\ forall k t, In (k, t) docs <-> exists v, document_of_path v t /\ k = normalize_uri v.
(** All of them can be read. *)
Definition complete : Prop :=
  forall v, reachable (refers w r) (map (fun x => resolve w r x (u ".")) paths) v -> exists t, loads_as w v t.
End Documents.
