(** Property C47. *)
From Coq Require Import ZArith List Bool Reals Lra Lia QArith Qcanon.
From Coq.Floats Require Import SpecFloat.
From Flocq Require Import Core.
From Verif Require Import Base Exp10 Components Timeline FloatProofs CurveProofs IntegrateSpec IntegrateProofs HalfProofs.
Import ListNotations.
Open Scope Z_scope.

(** Frames whose halves are exact as doubles. *)
Definition frame (i : Z) : Prop := - 2 ^ 52 <= i <= 2 ^ 52.

Lemma some_range : forall smooth kind l center base start stop r, zero_point l center base ->
  frame start -> frame center -> frame stop -> integrate smooth kind l start (Some stop) = Ok r ->
  start <= stop /\ center <= stop /\ Z.min start center < stop.
Proof.
  intros smooth kind l center base start stop r Z0 [S1 S2] [C1 C2] [E1 E2] H.
  rewrite (integrate_unfold _ _ _ _ _ _ _ Z0) in H.
  assert (start <= stop) as L.
  { unfold integrate_range in H. destruct (Z.ltb_spec stop start); [discriminate|lia]. }
  assert (center <= stop) as L2.
  { destruct (Z.le_gt_cases center stop) as [G|G]; [exact G|]. exfalso.
    apply (range_late_center ieee (value_at smooth kind l) half_frame (- 2 ^ 52) (2 ^ 52) (halves_ieee (- 2 ^ 52) (2 ^ 52) ltac:(lia) ltac:(lia))) in H; lia. }
  split; [exact L|]. split; [exact L2|].
  destruct (Z.eq_dec start stop) as [->|N]; [|lia].
  destruct (Z.eq_dec center stop) as [->|N]; [|lia].
  rewrite range_point in H by auto. discriminate.
Qed.

(** Each half frame of the range once, in order. *)
Theorem C47_every_half_frame_once : forall smooth kind l center base start stop r, zero_point l center base ->
  frame start -> frame center -> frame stop -> integrate smooth kind l start (Some stop) = Ok r ->
  Z.of_nat (length r) = 2 * (stop - start) + 1 /\
  forall j t v, nth_error r j = Some (t, v) -> f_wf t /\ f_fin t /\ f_real t = (IZR (2 * start + Z.of_nat j) / 2)%R.
Proof.
  intros smooth kind l center base start stop r Z0 HS HC HE H.
  destruct (some_range _ _ _ _ _ _ _ _ Z0 HS HC HE H) as (L1 & L2 & L3). unfold frame in *.
  rewrite (integrate_unfold _ _ _ _ _ _ _ Z0) in H.
  destruct (range_ok ieee (value_at smooth kind l) half_frame (- 2 ^ 52) (2 ^ 52) (halves_ieee (- 2 ^ 52) (2 ^ 52) ltac:(lia) ltac:(lia)) center base start stop r)
    as (Ln & x & _ & _ & X); [lia..|exact H|].
  change (num ieee) with float64 in *. split; [lia|]. intros j t v N.
  assert (nth_error r j <> None) as Q by congruence. apply nth_error_Some in Q.
  specialize (X (2 * start + Z.of_nat j) ltac:(lia)). replace (Z.to_nat (2 * start + Z.of_nat j - 2 * start)) with j in X by lia.
  rewrite N in X. injection X as -> _. apply half_real. lia.
Qed.
Print Assumptions C47_every_half_frame_once.

(** The values are those of a running total [x] of the curve's trapezoids, in doubles, less the
    total at the first keyframe, plus its base. *)
Theorem C47_values : forall smooth kind l center base start stop r, zero_point l center base ->
  frame start -> frame center -> frame stop -> integrate smooth kind l start (Some stop) = Ok r ->
  exists x : Z -> float64,
    x (2 * Z.min start center - 1) = f_of_Z 0 /\
    (forall k, 2 * Z.min start center <= k <= 2 * stop ->
       exists s, float_trapezoids (value_at smooth kind l) (fsub (half_frame k) (fdiv (f_of_Z 1) (f_of_Z 2))) (half_frame k) s /\
         x k = fadd (x (k - 1)) s) /\
    (forall k, 2 * start <= k <= 2 * stop ->
       nth_error r (Z.to_nat (k - 2 * start)) = Some (half_frame k, fsub (x k) (fsub (x (2 * center)) base))).
Proof.
  intros smooth kind l center base start stop r Z0 HS HC HE H.
  destruct (some_range _ _ _ _ _ _ _ _ Z0 HS HC HE H) as (L1 & L2 & L3). unfold frame in *.
  rewrite (integrate_unfold _ _ _ _ _ _ _ Z0) in H.
  destruct (range_ok ieee (value_at smooth kind l) half_frame (- 2 ^ 52) (2 ^ 52) (halves_ieee (- 2 ^ 52) (2 ^ 52) ltac:(lia) ltac:(lia)) center base start stop r)
    as (Ln & x & X0 & S & X); [lia..|exact H|].
  exists x. split; [exact X0|]. split; [|exact X]. intros k Hk. specialize (S k Hk). apply step_float in S.
  rewrite one_half_div. exact S.
Qed.
Print Assumptions C47_values.

(** With base frame 0 the value at the first keyframe's frame is 0 exactly, unless the total is
    not finite. The curve's values are to be doubles; [C47_values_are_doubles] says when. *)
Theorem C47_zero_at_first_keyframe : forall smooth kind l center start stop r, zero_point l center (f_of_Z 0) ->
  (forall t v, f_wf t -> value_at smooth kind l t = Ok v -> f_wf v) ->
  frame start -> frame center -> frame stop -> integrate smooth kind l start (Some stop) = Ok r -> start <= center ->
  exists t v, nth_error r (Z.to_nat (2 * (center - start))) = Some (t, v) /\ t = f_of_Z center /\
    (v = S754_zero false \/ v = S754_nan).
Proof.
  intros smooth kind l center start stop r Z0 W HS HC HE H Hc.
  destruct (some_range _ _ _ _ _ _ _ _ Z0 HS HC HE H) as (L1 & L2 & L3).
  destruct (C47_values _ _ _ _ _ _ _ _ Z0 HS HC HE H) as (x & X0 & S & X).
  assert (forall n, 2 * start - 1 + Z.of_nat n <= 2 * stop -> f_wf (x (2 * start - 1 + Z.of_nat n))) as Wx.
  { rewrite Z.min_l in * by lia. unfold frame in *. induction n as [|n IH]; intros Hn.
    - rewrite Z.add_0_r, X0. apply of_Z_wf.
    - destruct (S (2 * start - 1 + Z.of_nat (Datatypes.S n))) as (s & T & E); [lia|]. rewrite E.
      destruct (half_real (2 * start - 1 + Z.of_nat (Datatypes.S n))) as (Wk & _); [lia|].
      apply add_wf.
      + replace (2 * start - 1 + Z.of_nat (Datatypes.S n) - 1) with (2 * start - 1 + Z.of_nat n) by lia. apply IH. lia.
      + eapply trapezoids_wf; [exact W| |exact Wk|exact T]. apply sub_wf; [exact Wk|]. rewrite one_half_div. apply one_half_real. }
  specialize (Wx (Z.to_nat (2 * center - 2 * start + 1)) ltac:(lia)).
  replace (2 * start - 1 + Z.of_nat (Z.to_nat (2 * center - 2 * start + 1))) with (2 * center) in Wx by lia.
  specialize (X (2 * center) ltac:(lia)). replace (2 * center - 2 * start) with (2 * (center - start)) in X by lia.
  rewrite half_even in X. eexists _, _. split; [exact X|]. split; [reflexivity|]. now apply sub_self.
Qed.
Print Assumptions C47_zero_at_first_keyframe.

Theorem C47_values_are_doubles : forall smooth kind l, kind = 2 \/ kind = 3 ->
  (forall p, In p l -> exists u, cp_float (pcp_value p) = Ok u /\ f_wf u) ->
  forall t v, f_wf t -> value_at smooth kind l t = Ok v -> f_wf v.
Proof.
  intros smooth kind l K C t v W H. apply (value_wf smooth kind l t v K); auto.
  intros p u I E. destruct (C p I) as (u' & E' & W'). congruence.
Qed.
Print Assumptions C47_values_are_doubles.

(** Whether there is a result: the first keyframe's frame must not be after the range, and the
    range must not be that frame alone. *)
Theorem C47_result_when : forall smooth kind l center base start stop, zero_point l center base ->
  frame start -> frame center -> frame stop -> (forall t, exists v, value_at smooth kind l t = Ok v) ->
  ((exists r, integrate smooth kind l start (Some stop) = Ok r) <->
   (start <= stop /\ center <= stop /\ ~ (start = stop /\ center = stop))).
Proof.
  intros smooth kind l center base start stop Z0 HS HC HE F. split.
  - intros [r H]. destruct (some_range _ _ _ _ _ _ _ _ Z0 HS HC HE H). lia.
  - unfold frame in *. intros (L1 & L2 & L3). rewrite (integrate_unfold _ _ _ _ _ _ _ Z0).
    apply (range_total ieee (value_at smooth kind l) half_frame (- 2 ^ 52) (2 ^ 52)); auto; try lia. apply halves_ieee; lia.
Qed.
Print Assumptions C47_result_when.

(** The errors. *)
Theorem C47_errors : forall smooth kind l center base start, zero_point l center base ->
  (forall stop, stop < start -> integrate smooth kind l start (Some stop) = Err ValueErr) /\
  (start = center -> integrate smooth kind l start (Some start) = Err NameErr) /\
  (forall stop, frame start -> frame center -> start <= stop < center ->
     forall r, integrate smooth kind l start (Some stop) <> Ok r).
Proof.
  intros smooth kind l center base start Z0. split; [|split].
  - intros stop H. rewrite (integrate_unfold _ _ _ _ _ _ _ Z0). unfold integrate_range.
    destruct (Z.ltb_spec stop start); [reflexivity|lia].
  - intros H. rewrite (integrate_unfold _ _ _ _ _ _ _ Z0). exact (range_point ieee _ center base start (or_introl H)).
  - unfold frame. intros stop HS HC H r E. rewrite (integrate_unfold _ _ _ _ _ _ _ Z0) in E.
    apply (range_late_center ieee (value_at smooth kind l) half_frame (- 2 ^ 52) (2 ^ 52) (halves_ieee (- 2 ^ 52) (2 ^ 52) ltac:(lia) ltac:(lia))) in E; lia.
Qed.
Print Assumptions C47_errors.

(** Extending the range at its end changes no value. *)
Theorem C47_extend_end : forall smooth kind l center base start stop stop' r r', zero_point l center base ->
  frame start -> frame center -> frame stop -> frame stop' -> stop <= stop' ->
  integrate smooth kind l start (Some stop) = Ok r ->
  integrate smooth kind l start (Some stop') = Ok r' -> r = firstn (length r) r'.
Proof.
  intros smooth kind l center base start stop stop' r r' Z0 HS HC HE HE' L H H'.
  destruct (some_range _ _ _ _ _ _ _ _ Z0 HS HC HE H) as (L1 & L2 & L3).
  destruct (C47_every_half_frame_once _ _ _ _ _ _ _ _ Z0 HS HC HE H) as [Ln _]. unfold frame in *.
  rewrite (integrate_unfold _ _ _ _ _ _ _ Z0) in H. rewrite (integrate_unfold _ _ _ _ _ _ _ Z0) in H'.
  rewrite (range_prefix ieee (value_at smooth kind l) half_frame (- 2 ^ 52) (2 ^ 52) (halves_ieee (- 2 ^ 52) (2 ^ 52) ltac:(lia) ltac:(lia)) center base start stop stop' r')
    in H by (try exact H'; lia).
  apply Ok_inj in H. replace (length r) with (Z.to_nat (2 * (stop - start) + 1)) by lia. now symmetry.
Qed.
Print Assumptions C47_extend_end.

(** Nor does extending it at its start, up to the first keyframe. *)
Theorem C47_extend_start : forall smooth kind l center base start start' stop r r', zero_point l center base ->
  frame start' -> frame center -> frame stop -> center <= start' -> start' <= start ->
  integrate smooth kind l start (Some stop) = Ok r ->
  integrate smooth kind l start' (Some stop) = Ok r' -> r = skipn (Z.to_nat (2 * (start - start'))) r'.
Proof.
  intros smooth kind l center base start start' stop r r' Z0 HS HC HE L L' H H'.
  assert (start <= stop) as Ls.
  { rewrite (integrate_unfold _ _ _ _ _ _ _ Z0) in H. unfold integrate_range in H.
    destruct (Z.ltb_spec stop start); [discriminate|lia]. }
  destruct (some_range _ _ _ _ _ _ _ _ Z0 HS HC HE H') as (L1 & L2 & L3). unfold frame in *.
  rewrite (integrate_unfold _ _ _ _ _ _ _ Z0) in H. rewrite (integrate_unfold _ _ _ _ _ _ _ Z0) in H'.
  rewrite (range_suffix ieee (value_at smooth kind l) half_frame (- 2 ^ 52) (2 ^ 52) (halves_ieee (- 2 ^ 52) (2 ^ 52) ltac:(lia) ltac:(lia)) center base start start' stop r')
    in H by (try exact H'; lia).
  apply Ok_inj in H. now symmetry.
Qed.
Print Assumptions C47_extend_start.

(** Without an end, the range ends at the last keyframe's frame. *)
Theorem C47_default_end : forall smooth kind l p t e start, l <> [] -> nth_error l (length l - 1) = Some p ->
  pcp_time p = Ok t -> f_trunc t = Ok e ->
  integrate smooth kind l start None = integrate smooth kind l start (Some e).
Proof.
  intros smooth kind l p t e start NE N T E. destruct l as [|q l]; [congruence|]. unfold integrate.
  replace (last (q :: l) q) with p; [now rewrite T, E|].
  assert (forall (l : list param_control_point) x d, nth_error (x :: l) (length l) = Some p -> last (x :: l) d = p) as G.
  { clear. induction l as [|y l IH]; intros x d H; [now injection H|]. apply (IH y d). exact H. }
  symmetry. apply G. cbn [length] in N. now replace (S (length l) - 1)%nat with (length l) in N by lia.
Qed.
Print Assumptions C47_default_end.

(** ** Without rounding *)

(** The same computation over the rationals: the value at the first keyframe's frame is the base
    frame, and successive values differ by five trapezoids over the half frame, a tenth of a
    frame early. *)
Theorem C47_exact_values : forall (f : Qc -> Qc) center (base : Qc) start stop r,
  start <= stop -> center <= stop -> Z.min start center < stop ->
  integrate_range rational (fun t => Ok (f t)) center base start stop = Ok r ->
  exists w : Z -> Qc,
    w (2 * center) = base /\
    (forall k, 2 * Z.min start center < k <= 2 * stop ->
       w k = (w (k - 1)%Z + five_trapezoids f (q_half_frame (k - 1)) (q_half_frame k))%Qc) /\
    length r = Z.to_nat (2 * (stop - start) + 1) /\
    (forall k, 2 * start <= k <= 2 * stop -> nth_error r (Z.to_nat (k - 2 * start)) = Some (q_half_frame k, w k)).
Proof. exact rational_values. Qed.
Print Assumptions C47_exact_values.

(** So where the range starts makes no difference. *)
Theorem C47_exact_extend_start : forall (f : Qc -> Qc) center (base : Qc) start start' stop r r',
  start' <= start -> start <= stop -> center <= stop -> Z.min start center < stop ->
  integrate_range rational (fun t => Ok (f t)) center base start stop = Ok r ->
  integrate_range rational (fun t => Ok (f t)) center base start' stop = Ok r' ->
  r = skipn (Z.to_nat (2 * (start - start'))) r'.
Proof.
  intros f center base start start' stop r r' L1 L2 L3 L4 H H'.
  destruct (rational_values f center base start stop r L2 L3 L4 H) as (w & W0 & Ws & Wl & W).
  destruct (rational_values f center base start' stop r') as (w' & W0' & Ws' & Wl' & W'); [lia..|exact H'|].
  assert (forall k, 2 * Z.min start center <= k <= 2 * stop -> w' k = w k) as E.
  { apply (agree _ _ (2 * Z.min start center) (2 * stop) (2 * center)); [lia|congruence|].
    intros k Hk. rewrite Ws, Ws' by lia. ring. }
  apply nth_error_ext'. intros j. rewrite nth_error_skipn'.
  destruct (Nat.lt_ge_cases j (length r)) as [G|G].
  - specialize (W (2 * start + Z.of_nat j) ltac:(lia)). specialize (W' (2 * start + Z.of_nat j) ltac:(lia)).
    replace (Z.to_nat (2 * start + Z.of_nat j - 2 * start)) with j in W by lia.
    replace (Z.to_nat (2 * start + Z.of_nat j - 2 * start')) with (Z.to_nat (2 * (start - start')) + j)%nat in W' by lia.
    rewrite W, W'. rewrite E by lia. reflexivity.
  - rewrite (proj2 (nth_error_None r j)) by exact G. symmetry. apply nth_error_None. lia.
Qed.
Print Assumptions C47_exact_extend_start.

(** At constant speed the offsets are those of uniform motion from the base frame. *)
Theorem C47_constant_speed : forall (c : Qc) center (base : Qc) start stop r,
  start <= stop -> center <= stop -> Z.min start center < stop ->
  integrate_range rational (fun _ => Ok c) center base start stop = Ok r ->
  forall k, 2 * start <= k <= 2 * stop ->
    nth_error r (Z.to_nat (k - 2 * start)) =
      Some (q_half_frame k, (base + c * (q_half_frame k - q_half_frame (2 * center)))%Qc).
Proof.
  intros c center base start stop r L1 L2 L3 H k Hk.
  destruct (rational_values (fun _ => c) center base start stop r L1 L2 L3 H) as (w & W0 & Ws & Wl & W).
  rewrite (W k Hk). f_equal. f_equal.
  apply (agree w (fun k => base + c * (q_half_frame k - q_half_frame (2 * center)))%Qc (2 * Z.min start center) (2 * stop) (2 * center)); try lia.
  - rewrite W0. change (num rational) with Qc in *; ring.
  - intros j Hj. rewrite Ws by lia. rewrite trapezoids_constant. ring.
Qed.
Print Assumptions C47_constant_speed.

(** At a speed [m t + c] each half frame adds the exact integral over the half frame a tenth of a
    frame earlier. *)
Theorem C47_ramp : forall m c k,
  let e := (qz 1 / qz 10)%Qc in let a := (q_half_frame (k - 1) - e)%Qc in let b := (q_half_frame k - e)%Qc in
  let F := (fun t => m / qz 2 * (t * t) + c * t)%Qc in
  five_trapezoids (fun t => m * t + c)%Qc (q_half_frame (k - 1)) (q_half_frame k) = (F b - F a)%Qc.
Proof. exact ramp. Qed.
Print Assumptions C47_ramp.

(** ** Examples *)

Definition no_smooth (l : list param_control_point) (i : Z) (t : float64) : result float64 := Err NotImplementedErr.

Definition key (n : Z) (v : cp_value) : param_control_point :=
  {| pcp_offset_num := n; pcp_offset_den := 1; pcp_timescale := 1; pcp_value := v; pcp_pp := [] |}.

(** Double speed from frame 2 on: the offset at 2 is 0, at 3 it is 2, at 1 it is -2. *)
Example C47_example :
  zero_point [key 2 (CPInt 2); key 6 (CPInt 2)] 2 (f_of_Z 0) /\
  integrate no_smooth 3 [key 2 (CPInt 2); key 6 (CPInt 2)] 1 (Some 3) =
    Ok [(f_of_Z 1, f_of_Z (-2)); (half_frame 3, f_of_Z (-1)); (f_of_Z 2, f_of_Z 0); (half_frame 5, f_of_Z 1); (f_of_Z 3, f_of_Z 2)].
Proof.
  split.
  - exists (key 2 (CPInt 2)), [key 6 (CPInt 2)], (f_of_Z 2). split; [reflexivity|]. split; [vm_compute; reflexivity|].
    split; [vm_compute; reflexivity|]. right. split; [intros x []|reflexivity].
  - vm_compute. reflexivity.
Qed.

(** With doubles, starting before the first keyframe does change the later values: a steady
    speed of 0.1, from frame 0 and from frame -7. *)
Theorem C47_start_before_first_keyframe_refuted : exists l center start start' stop r r',
  zero_point l center (f_of_Z 0) /\ start' <= center /\ start' <= start /\
  integrate no_smooth 3 l start (Some stop) = Ok r /\ integrate no_smooth 3 l start' (Some stop) = Ok r' /\
  r <> skipn (Z.to_nat (2 * (start - start'))) r'.
Proof.
  set (l := [key 0 (CPDouble 4591870180066957722); key 8 (CPDouble 4591870180066957722)]).
  pose (r := match integrate no_smooth 3 l 0 (Some 3) with Ok r => r | _ => [] end).
  pose (r' := match integrate no_smooth 3 l (-7) (Some 3) with Ok r => r | _ => [] end).
  exists l, 0, 0, (-7), 3, r, r'. split.
  - exists (key 0 (CPDouble 4591870180066957722)), [key 8 (CPDouble 4591870180066957722)], (f_of_Z 0).
    split; [reflexivity|]. split; [vm_compute; reflexivity|]. split; [vm_compute; reflexivity|].
    right. split; [intros x []|reflexivity].
  - split; [lia|]. split; [lia|]. split; [vm_compute; reflexivity|]. split; [vm_compute; reflexivity|].
    vm_compute. discriminate.
Qed.
Print Assumptions C47_start_before_first_keyframe_refuted.
