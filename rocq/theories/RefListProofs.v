(** Facts about the indexes of lists. *)
From Coq Require Import ZArith List Bool Lia.
From Verif Require Import Base RefList RefListSpec.
Import ListNotations.
Open Scope Z_scope.

Lemma index_at : forall n i k, py_index n i = Some k -> at_index n i k.
Proof.
  intros n i k H. unfold py_index in H.
  destruct (Z.ltb_spec i 0); match type of H with (if ?c then _ else _) = _ => destruct c eqn:E; [|discriminate] end;
    apply andb_prop in E as [E1 E2]; apply Z.leb_le in E1; apply Z.ltb_lt in E2; injection H as <-; unfold at_index; lia.
Qed.

Lemma index_none : forall n i, py_index n i = None <-> ~ (- n <= i < n).
Proof.
  intros n i. unfold py_index.
  destruct (Z.ltb_spec i 0); match goal with |- (if ?c then _ else _) = _ <-> _ => destruct c eqn:E end;
    rewrite ?andb_true_iff, ?andb_false_iff, ?Z.leb_le, ?Z.ltb_lt, ?Z.leb_gt, ?Z.ltb_ge in E; split; try discriminate; try lia; reflexivity.
Qed.

Lemma split_at : forall (l : list entry) k, (k < length l)%nat -> l = firstn k l ++ nth k l ENone :: skipn (S k) l.
Proof.
  induction l as [|e l IH]; intros k H; [cbn in H; lia|]. destruct k as [|k]; [reflexivity|].
  cbn [firstn nth skipn app]. f_equal. apply IH. cbn [length] in H. lia.
Qed.

Lemma len_map : forall A B (f : A -> B) l, len (map f l) = len l.
Proof. intros. unfold len. now rewrite map_length. Qed.
