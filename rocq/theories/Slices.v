(** Model of slices and of the inherited operators of [AVBRefList] (src/avb/core.py:53-134). The rules
    of slices are those of Python's own list, which these methods call ([PySlice_AdjustIndices] and
    [list_ass_subscript] of CPython 3). *)
From Coq Require Import ZArith List Bool.
From Verif Require Import Base RefList.
Import ListNotations.
Open Scope Z_scope.

(** [start:stop:step] as given in [l[...]] (core.py:121-130). *)
Record slice := { sl_start : option Z; sl_stop : option Z; sl_step : option Z }.

(** [list[...]], one bound adjusted to a list of [n]: from the end if negative, then into the list
    ([core.py:121-130] through [PySlice_AdjustIndices]). *)
Definition adjust (n step x : Z) : Z :=
  if x <? 0 then let y := x + n in if y <? 0 then (if step <? 0 then -1 else 0) else y
  else if n <=? x then (if step <? 0 then n - 1 else n) else x.

(** [slice.indices]: start, stop, step and the number of positions; [None] for a step of 0
    (core.py:121-130). An omitted bound is the largest or smallest number there is. *)
Definition slice_indices (n : Z) (s : slice) : option (Z * Z * Z * Z) :=
  let step := match sl_step s with Some x => x | None => 1 end in
  if step =? 0 then None
  else
    let start := match sl_start s with Some x => adjust n step x | None => if step <? 0 then n - 1 else 0 end in
    let stop := match sl_stop s with Some x => adjust n step x | None => if step <? 0 then -1 else n end in
    let count := if step <? 0 then (if stop <? start then (start - stop - 1) / (- step) + 1 else 0)
                 else (if start <? stop then (stop - start - 1) / step + 1 else 0) in
    Some (start, stop, step, count).

(** The positions of a slice, in its order (core.py:121-130). *)
Definition slice_positions (start step count : Z) : list Z :=
  map (fun i => start + Z.of_nat i * step) (seq 0 (Z.to_nat count)).

(** The entries that are left when some positions are deleted (core.py:128-130). *)
Fixpoint py_delete (ps : list Z) (i : Z) (l : list entry) : list entry :=
  match l with
  | [] => []
  | e :: l' => if existsb (Z.eqb i) ps then py_delete ps (i + 1) l' else e :: py_delete ps (i + 1) l'
  end.

(** Entries put in some positions, one by one (core.py:124-126). *)
Definition py_assign (l : list entry) (pxs : list (Z * entry)) : list entry :=
  fold_left (fun l px => firstn (Z.to_nat (fst px)) l ++ snd px :: skipn (S (Z.to_nat (fst px))) l) pxs l.

(** What these calls leave: the list, the exception if any, whether [mark_modified] was called, and
    the list that is returned (core.py:121-130). *)
Record slice_end := { se_list : list entry; se_error : option exn; se_marked : bool; se_answer : list entry }.

(** core.py:121-122 [__getitem__] with a slice: [deref] finds a list and returns it as it is. *)
Definition get_slice (l : list entry) (s : slice) : slice_end :=
  match slice_indices (len l) s with
  | None => {| se_list := l; se_error := Some ValueErr; se_marked := false; se_answer := [] |}
  | Some (start, _, step, count) =>
    {| se_list := l; se_error := None; se_marked := false;
       se_answer := map (fun k => nth (Z.to_nat k) l ENone) (slice_positions start step count) |}
  end.

(** core.py:128-130 [__delitem__] with a slice. *)
Definition del_slice (l : list entry) (s : slice) : slice_end :=
  match slice_indices (len l) s with
  | None => {| se_list := l; se_error := Some ValueErr; se_marked := false; se_answer := [] |}
  | Some (start, _, step, count) =>
    {| se_list := py_delete (slice_positions start step count) 0 l; se_error := None; se_marked := true; se_answer := [] |}
  end.

(** core.py:124-126 [__setitem__] with a slice and a list. *)
Definition set_slice (l : list entry) (s : slice) (xs : list entry) : slice_end :=
  match slice_indices (len l) s with
  | None => {| se_list := l; se_error := Some ValueErr; se_marked := false; se_answer := [] |}
  | Some (start, stop, step, count) =>
    if step =? 1 then
      {| se_list := firstn (Z.to_nat start) l ++ xs ++ skipn (Z.to_nat (Z.max start stop)) l;
         se_error := None; se_marked := true; se_answer := [] |}
    else if len xs =? count then
      {| se_list := py_assign l (combine (slice_positions start step count) xs);
         se_error := None; se_marked := true; se_answer := [] |}
    else {| se_list := l; se_error := Some ValueErr; se_marked := false; se_answer := [] |}
  end.

(** [l += xs], [l *= n]: not among the methods of [AVBRefList] (core.py:53-134), so Python's own, which
    know nothing of [mark_modified]. *)
Definition iadd (l xs : list entry) : slice_end :=
  {| se_list := l ++ xs; se_error := None; se_marked := false; se_answer := l ++ xs |}.
(** See [iadd] (core.py:53-134). *)
Definition imul (l : list entry) (n : Z) : slice_end :=
  let r := concat (repeat l (Z.to_nat n)) in {| se_list := r; se_error := None; se_marked := false; se_answer := r |}.
