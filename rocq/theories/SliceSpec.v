(** Which positions a slice takes, as the Python documentation has it. *)
From Coq Require Import ZArith List Bool Sorted.
From Verif Require Import Base RefList Slices.
Import ListNotations.
Open Scope Z_scope.

(** The step; 1 if omitted. *)
Definition step_of (s : slice) : Z := match sl_step s with Some x => x | None => 1 end.

(** A bound, counted from the end if negative. *)
Definition counted (n x : Z) : Z := if x <? 0 then n + x else x.

(** The slice takes position [k] of a list of [n]: going forward from the first bound (not before
    the beginning) in steps until the second is reached, or going backward from the first bound (not
    behind the end). *)
Definition takes (n : Z) (s : slice) (k : Z) : Prop :=
  0 <= k < n /\
  if 0 <? step_of s then
    let first := match sl_start s with Some x => Z.max 0 (counted n x) | None => 0 end in
    let last := match sl_stop s with Some x => counted n x | None => n end in
    first <= k < last /\ exists i, 0 <= i /\ k = first + i * step_of s
  else
    let first := match sl_start s with Some x => Z.min (n - 1) (counted n x) | None => n - 1 end in
    match sl_stop s with Some x => counted n x < k | None => True end /\
    k <= first /\ exists i, 0 <= i /\ k = first + i * step_of s.

(** [ps] are these positions in the order of the slice. *)
Definition taken (n : Z) (s : slice) (ps : list Z) : Prop :=
  (forall k, In k ps <-> takes n s k) /\
  StronglySorted (fun a b => if 0 <? step_of s then a < b else b < a) ps.

(** [l'] is [l] without these positions. *)
Inductive without {V} (gone : Z -> Prop) : Z -> list V -> list V -> Prop :=
| without_end : forall i, without gone i [] []
| without_gone : forall i v l l', gone i -> without gone (i + 1) l l' -> without gone i (v :: l) l'
| without_kept : forall i v l l', ~ gone i -> without gone (i + 1) l l' -> without gone i (v :: l) (v :: l').
