(** What list operations do, for an ordinary Python list of values. *)
From Coq Require Import ZArith List Bool.
From Verif Require Import Base RefList.
Import ListNotations.
Open Scope Z_scope.

(** [i] is the index of position [k] in a list of [n]. *)
Definition at_index (n i : Z) (k : nat) : Prop :=
  (0 <= i /\ Z.of_nat k = i \/ i < 0 /\ Z.of_nat k = n + i) /\ Z.of_nat k < n.

(** The position an insertion goes to. *)
Definition before_index (n i : Z) (k : nat) : Prop :=
  Z.of_nat k = if i <? 0 then Z.max 0 (n + i) else Z.min i n.

(** [l] becomes [l'] and [a] is the answer, when the call succeeds. *)
Inductive effect {V} (val : entry -> V) : list_op -> list V -> list V -> option V -> Prop :=
| eff_append : forall x l, effect val (LAppend x) l (l ++ [val x]) None
| eff_extend : forall xs l, effect val (LExtend xs) l (l ++ map val xs) None
| eff_insert : forall i x p q, before_index (len (p ++ q)) i (length p) ->
    effect val (LInsert i x) (p ++ q) (p ++ val x :: q) None
| eff_pop : forall i v p q, at_index (len (p ++ v :: q)) i (length p) ->
    effect val (LPop i) (p ++ v :: q) (p ++ q) (Some v)
| eff_get : forall i v p q, at_index (len (p ++ v :: q)) i (length p) ->
    effect val (LGet i) (p ++ v :: q) (p ++ v :: q) (Some v)
| eff_set : forall i x v p q, at_index (len (p ++ v :: q)) i (length p) ->
    effect val (LSet i x) (p ++ v :: q) (p ++ val x :: q) None
| eff_del : forall i v p q, at_index (len (p ++ v :: q)) i (length p) ->
    effect val (LDel i) (p ++ v :: q) (p ++ q) None.

(** The operations listed above. *)
Definition ordinary (o : list_op) : bool :=
  match o with LRemove _ | LClear | LSort | LReverse => false | _ => true end.

(** The index an operation uses. *)
Definition op_index (o : list_op) : option Z :=
  match o with LPop i | LGet i | LSet i _ | LDel i => Some i | _ => None end.
