(** Which values have a stored form that reads back as the same value. These are the side
    conditions of the round-trip theorems; integers and references need none, because
    writing them fails when they do not fit. *)
From Coq Require Import ZArith List Bool.
From Verif Require Import Base IoCtx Text Exp10 MobId.
Import ListNotations.
Open Scope Z_scope.

(** A text without a NUL at either end (what ioctx.py:159 keeps). *)
Definition no_outer_nul (s : list Z) : Prop := hd 1 s <> 0 /\ last s 1 <> 0.

(** Texts that come back unchanged, provided the writer accepts them (ioctx.py:153-174). *)
Definition str_ok (s : str) : Prop := no_outer_nul s /\ len s < 65535.

(** What the UTF-8 form of a text takes, without the two leading NULs (ioctx.py:168-172). *)
Definition utf8_size (s : str) : Z :=
  fold_right (fun c n => n + (if c <? 0x80 then 1 else if c <? 0x800 then 2
                              else if c <? 0x10000 then 3 else 4)) 0 s.

(** A text [write_string(..., 'utf-8')] stores exactly, ioctx.py:153-174. *)
Definition utf8_ok (s : str) : Prop := no_outer_nul s /\ utf8_size s < 65533.

(** A rate whose stored form, if it has one, reads back as the same rate (ioctx.py:128-150). *)
Definition exp10_stable (x : float64) : Prop :=
  match exp10_parts x with Ok (m, e) => exp10_value m e = Ok x | Err _ => True end.

(** A condition on a property that may be missing. A specification, for properties guarded as at
    components.py:89. *)
Definition opt_ok {A} (P : A -> Prop) (o : option A) : Prop :=
  match o with Some v => P v | None => True end.
