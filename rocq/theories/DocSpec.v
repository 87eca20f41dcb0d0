(** Words for what is said about documents. *)
From Coq Require Import ZArith List.
From Verif Require Import Base DocModel.
Import ListNotations.
Open Scope Z_scope.

(** A document just opened from a file with [n] objects, or just made. *)
Definition starts (n : Z) (d : doc) : Prop := (0 <= n /\ exists disk, d = opened_doc n disk) \/ (n = 0 /\ d = empty_doc).

(** A history. *)
Definition run (d : doc) (h : list doc_op) : doc := fold_left doc_step h d.

(** The object at an address is alive, with an identity and contents. *)
Definition alive (d : doc) (a i v : Z) : Prop := exists k, d_cells d a = Some {| c_kind := k; c_id := Some i; c_val := v |}.

(** Steps that only look: loading, giving up objects, choosing the content. *)
Definition looks (o : doc_op) : Prop := match o with Load _ | Forget _ | Content _ => True | _ => False end.

(** Steps that do not change the contents of the object at [a]. *)
Definition spares (a : Z) (o : doc_op) : Prop := match o with Change _ b _ => b <> a | _ => True end.

(** Steps that do not replace the document's content object. *)
Definition keeps_content (o : doc_op) : Prop := match o with Content _ => False | _ => True end.
