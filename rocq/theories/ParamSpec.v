(** How a UUID is written as text, and what an entry of a table is. *)
From Coq Require Import ZArith String List.
From Verif Require Import Base Text MobId Names LookupSpec.
Import ListNotations.
Open Scope Z_scope.

(** The 32 digits of the 16 bytes, lower case, with dashes after the first eight and after each of
    the next three groups of four. *)
Definition spells (s : str) (u : uuid) : Prop :=
  exists a b c d e, s = a ++ [45] ++ b ++ [45] ++ c ++ [45] ++ d ++ [45] ++ e /\
    length a = 8%nat /\ length b = 4%nat /\ length c = 4%nat /\ length d = 4%nat /\ length e = 12%nat /\
    Forall (fun x => 48 <= x <= 57 \/ 97 <= x <= 102) (a ++ b ++ c ++ d ++ e) /\
    unhex (a ++ b ++ c ++ d ++ e) = u.

(** The table has the name [n] under the key [k]. *)
Definition entry (table : list (string * string)) (k n : str) : Prop :=
  exists k' n', In (k', n') table /\ k = txt k' /\ n = txt n'.
