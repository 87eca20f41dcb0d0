(** What C38 and C39 speak of, apart from the model of the code. *)
From Coq Require Import ZArith List Bool.
Import ListNotations.
Open Scope Z_scope.

(** [b] is [a] or can be reached from it through sources. *)
Inductive leads (refs : Z -> list Z) : Z -> Z -> Prop :=
| leads_refl : forall a, leads refs a a
| leads_step : forall a b c, In b (refs a) -> leads refs b c -> leads refs a c.

(** No mob reached from [top] leads back to itself. *)
Definition acyclic (refs : Z -> list Z) (top : Z) : Prop :=
  forall a b, leads refs top a -> In b (refs a) -> ~ leads refs b a.

(** What is reached from [top] is finite. *)
Definition finite (refs : Z -> list Z) (top : Z) : Prop :=
  exists l : list Z, forall a, leads refs top a -> In a l.

(** Mob IDs tell the mobs reached apart. *)
Definition ids_apart (refs : Z -> list Z) (mid : Z -> Z) (top : Z) : Prop :=
  forall a b, leads refs top a -> leads refs top b -> mid a = mid b -> a = b.

(** The last mob of a list that has a given ID. *)
Definition last_with (mid : Z -> Z) (ms : list Z) (id : Z) (r : option Z) : Prop :=
  match r with
  | None => forall m, In m ms -> mid m <> id
  | Some m => exists p q, ms = p ++ m :: q /\ mid m = id /\ forall m', In m' q -> mid m' <> id
  end.
