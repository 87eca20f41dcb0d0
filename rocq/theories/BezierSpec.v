(** What the properties of smooth curves say, apart from the code of Bezier.v. *)
From Coq Require Import ZArith Reals List.
From Verif Require Import Base Bezier.
Import ListNotations.
Open Scope R_scope.

(** The point at [s] of the way from [a] to [b]. *)
Definition mix (s a b : R) : R := a + s * (b - a).

(** A coordinate of a Bezier curve at [s], by repeated mixing (de Casteljau). *)
Definition curve (s x0 x1 x2 x3 : R) : R :=
  let a := mix s x0 x1 in
  let b := mix s x1 x2 in
  let c := mix s x2 x3 in
  mix s (mix s a b) (mix s b c).

(** [h] is the handle meant by [p] for a segment from [e] to [f]: [p] itself if its time is in the
    segment; if it lies past [f], where the line from [e] to [p] has the time of [f]; if it lies
    on the other side of [e], its value at the time of [e]. *)
Definition handle (e p f h : R * R) : Prop :=
  let far := (fst p - fst f) * (fst f - fst e) > 0 in
  let behind := (fst p - fst e) * (fst f - fst e) < 0 in
  (far -> fst h = fst f /\ (snd h - snd e) * (fst p - fst e) = (snd p - snd e) * (fst h - fst e)) /\
  (behind -> h = (fst e, snd p)) /\
  (~ far -> ~ behind -> h = p).

(** Times for which the solver's thresholds do no harm: a coefficient is zero or at least 10^-10. *)
Definition tame (x0 x1 x2 x3 : R) : Prop :=
  let d := x3 - 3 * x2 + 3 * x1 - x0 in
  let a := 3 * (x0 - 2 * x1 + x2) in
  / 10 ^ 10 <= Rabs d \/ (d = 0 /\ / 10 ^ 10 <= Rabs a) \/ (d = 0 /\ a = 0 /\ / 10 ^ 10 <= x3 - x0).

(** Between two numbers, in either order. *)
Definition between (a b v : R) : Prop := a <= v <= b \/ b <= v <= a.

(** The times of the keyframes increase, by at least [gap]. *)
Definition spaced (gap : R) (l : list key) : Prop :=
  forall i p q, nth_error l i = Some p -> nth_error l (S i) = Some q ->
    k_time p < k_time q /\ k_time p + gap <= k_time q.

(** The property with code [c] of a keyframe: the last one, or 0. *)
Definition pp_is (k : key) (c : Z) (v : R) : Prop :=
  (exists l1 l2, k_pp k = l1 ++ (c, v) :: l2 /\ (forall w, ~ In (c, w) l2)) \/
  (v = 0 /\ forall w, ~ In (c, w) (k_pp k)).

(** The handles of the segment from [p] to [q]. *)
Definition handles (p q : key) (h1 h2 : R * R) : Prop :=
  exists ox ov ix iv, pp_is p 7 ox /\ pp_is p 8 ov /\ pp_is q 5 ix /\ pp_is q 6 iv /\
    handle (k_time p, k_value p) (k_time p + ox, k_value p + ov) (k_time q, k_value q) h1 /\
    handle (k_time q, k_value q) (k_time q + ix, k_value q + iv) (k_time p, k_value p) h2.

(** All segments have times that the solver can handle. *)
Definition tame_keys (l : list key) : Prop :=
  forall i p q h1 h2, nth_error l i = Some p -> nth_error l (S i) = Some q -> handles p q h1 h2 ->
    tame (k_time p) (fst h1) (fst h2) (k_time q).
