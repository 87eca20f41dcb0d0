(** What the properties of sequences and curves say, apart from the code of Timeline.v. *)
From Coq Require Import ZArith List Bool.
From Verif Require Import Base Timeline.
Import ListNotations.
Open Scope Z_scope.

(** Total length of the clips, and of the transitions, of a list of components. *)
Definition sum (l : list Z) : Z := fold_right Z.add 0 l.
Definition clips (l : list item) : Z := sum (map it_len (filter (fun c => negb (it_trans c)) l)).
Definition transitions (l : list item) : Z := sum (map it_len (filter it_trans l)).

(** Component [c] is the one at index [i] and starts at [p]: what comes before it, clips less
    transitions, and less its own length if it is itself a transition. *)
Definition stands (l : list item) (i : nat) (p : Z) (c : item) : Prop :=
  nth_error l i = Some c /\
  p = clips (firstn i l) - transitions (firstn i l) - (if it_trans c then it_len c else 0).

(** An edit that makes sense: no negative lengths; a transition follows a clip longer than itself;
    the component after it is a clip at least as long. *)
Definition proper (l : list item) : Prop :=
  (forall i c, nth_error l i = Some c -> 0 <= it_len c) /\
  (forall c, nth_error l 0 = Some c -> it_trans c = false) /\
  (forall i a c, nth_error l i = Some a -> nth_error l (S i) = Some c -> it_trans c = true ->
     it_trans a = false /\ it_len c < it_len a) /\
  (forall i c b, nth_error l i = Some c -> nth_error l (S i) = Some b -> it_trans c = true ->
     it_len c <= it_len b).

(** No two transitions overlap. *)
Definition no_overlap (l : list item) : Prop :=
  forall i c b d, nth_error l i = Some c -> nth_error l (S i) = Some b -> nth_error l (S (S i)) = Some d ->
    it_trans c = true -> it_trans d = true -> it_len c + it_len d <= it_len b.

(** The time [t] falls on component [c] starting at [p]: a transition owns its first instant, a clip its last. *)
Definition plays (p : Z) (c : item) (t : Z) : Prop :=
  if it_trans c then p <= t < p + it_len c else p < t <= p + it_len c.
