(** Which objects the steps of a program need. A specification; nothing here is code of the
    repository. *)
From Coq Require Import ZArith List Bool.
From Verif Require Import Base Objects FileModel Edited.
Import ListNotations.
Open Scope Z_scope.

(** An object is in memory. *)
Definition in_memory (s : editing) (i : Z) : Prop := ed_live s i <> None.

(** The object a step looks at or changes. *)
Definition needs (e : edit) (i : Z) : Prop :=
  match e with Follow j | Assign j _ | InPlace j _ => i = j | _ => False end.

(** At every step of a list, what it needs is in memory by then ([step] makes the steps). *)
Fixpoint supplied (step : editing -> edit -> editing) (s : editing) (h : list edit) : Prop :=
  match h with
  | [] => True
  | e :: h' => (forall i, needs e i -> in_memory s i) /\ supplied step (step s e) h'
  end.

(** A step that gives an object other contents. *)
Definition changes (s : editing) (e : edit) (i : Z) : Prop :=
  match e with Make _ => i = ed_next s + 1 | Assign j _ | InPlace j _ => i = j | _ => False end.

(** No step of a list gives an object other contents. *)
Fixpoint spares (step : editing -> edit -> editing) (s : editing) (h : list edit) (i : Z) : Prop :=
  match h with
  | [] => True
  | e :: h' => ~ changes s e i /\ spares step (step s e) h' i
  end.
