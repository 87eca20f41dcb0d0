(** What the properties of keyframe curves say, apart from the code of Timeline.v. *)
From Coq Require Import ZArith List Bool Reals.
From Verif Require Import Base Exp10 Components Timeline FloatProofs.
Import ListNotations.
Open Scope R_scope.

(** A keyframe whose fields are what its record can hold, with a time and a number for value. *)
Definition keyframe_ok (p : param_control_point) : Prop :=
  (- 2 ^ 31 <= pcp_offset_num p < 2 ^ 31)%Z /\
  (- 2 ^ 31 <= pcp_offset_den p < 2 ^ 31)%Z /\ pcp_offset_den p <> 0%Z /\
  (- 2 ^ 31 <= pcp_timescale p < 2 ^ 31)%Z /\ pcp_timescale p <> 0%Z.

(** The keyframes have the times [ts], which increase. *)
Definition has_times (l : list param_control_point) (ts : list R) : Prop :=
  length ts = length l /\
  forall i p, nth_error l i = Some p ->
    exists x t, pcp_time p = Ok x /\ f_wf x /\ f_fin x /\ f_real x = t /\ nth_error ts i = Some t.

Definition increasing (ts : list R) : Prop :=
  forall i j a b, (i < j)%nat -> nth_error ts i = Some a -> nth_error ts j = Some b -> a < b.

(** Index [k] is that of the last time at or before [t], or 0 if there is none. *)
Definition last_at_or_before (ts : list R) (t : R) (k : nat) : Prop :=
  (exists a, nth_error ts k = Some a /\ a <= t /\
     forall j b, (k < j)%nat -> nth_error ts j = Some b -> t < b) \/
  (k = 0%nat /\ forall j b, nth_error ts j = Some b -> t < b).

(** The keyframe's value is the float [v]. *)
Definition has_value (p : param_control_point) (v : float64) : Prop :=
  cp_float (pcp_value p) = Ok v /\ f_wf v /\ f_fin v.
