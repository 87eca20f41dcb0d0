(** C55-C56: Bezier and spline curves between keyframes, in exact arithmetic. *)
From Coq Require Import ZArith Reals List Bool Lra Lia.
From Verif Require Import Base Bezier BezierSpec BezierProofs.
Import ListNotations.
Open Scope R_scope.

(** Between keyframes at increasing times there is one pair of handles, with times inside the segment. *)
Theorem C55_handles : forall p q, k_time p < k_time q -> exists h1 h2, handles p q h1 h2 /\
  k_time p <= fst h1 <= k_time q /\ k_time p <= fst h2 <= k_time q /\
  forall h1' h2', handles p q h1' h2' -> h1' = h1 /\ h2' = h2.
Proof.
  intros p q L. destruct (handles_exist p q L) as (h1 & h2 & H). exists h1, h2. split; [exact H|].
  destruct (bezier_case_eq p q h1 h2 0 L H) as (o & n & _ & H1 & H2).
  destruct (first_handle_ok _ _ _ _ (L : fst (k_time p, k_value p) < fst (k_time q, k_value q)) H1) as [_ B1].
  destruct (second_handle_ok _ _ _ _ (L : fst (k_time p, k_value p) < fst (k_time q, k_value q)) H2) as [_ B2].
  split; [exact B1|]. split; [exact B2|]. intros h1' h2' H'. now apply (handles_fun p q).
Qed.
Print Assumptions C55_handles.

Example C55_handles_case : forall h1 h2, handles {| k_time := 0; k_value := 0; k_pp := [(7%Z, 1); (8%Z, 0)] |}
  {| k_time := 10; k_value := 4; k_pp := [(5%Z, -5); (6%Z, 1)] |} h1 h2 -> h1 = (1, 0) /\ h2 = (5, 5).
Proof.
  intros h1 h2 H. match type of H with handles ?p ?q _ _ => destruct (C55_handles p q) as (g1 & g2 & _ & _ & _ & U) end.
  - cbn [k_time]. lra.
  - destruct (U _ _ H) as [-> ->]. destruct (U _ _ sample_handles) as [<- <-]. split; reflexivity.
Qed.

(** Inside a segment the value is that of the Bezier curve through the keyframes with their handles,
    at a place whose time is [t]: exactly, or within 4 parts in 10^10 of the segment at its ends. *)
Theorem C55_bezier_on_curve : forall l i p q h1 h2 t,
  spaced 0 l -> nth_error l i = Some p -> nth_error l (S i) = Some q -> handles p q h1 h2 ->
  tame (k_time p) (fst h1) (fst h2) (k_time q) -> k_time p <= t < k_time q ->
  exists s, 0 <= s <= 1 /\
    Rabs (curve s (k_time p) (fst h1) (fst h2) (k_time q) - t) <= 4 / 10 ^ 10 * (k_time q - k_time p) /\
    (0 < s < 1 -> curve s (k_time p) (fst h1) (fst h2) (k_time q) = t) /\
    curve_at 5 l t = Ok (curve s (k_value p) (snd h1) (snd h2) (k_value q)).
Proof.
  intros l i p q h1 h2 t S Hp Hq H T Bt. destruct (S i p q Hp Hq) as [L _].
  rewrite (curve_inside 0 5 l t i p q S Hp Hq Bt). unfold segment. cbn [Z.eqb Pos.eqb].
  destruct (bezier_case_eq p q h1 h2 t L H) as (o & n & -> & H1 & H2).
  destruct (interpolate (k_time p, k_value p) o n (k_time q, k_value q) h1 h2 t L H1 H2 T) as (r & V & E & ->);
    [cbn [fst]; lra|]. cbn [fst snd] in *.
  destruct (first_handle_ok _ _ _ _ (L : fst (k_time p, k_value p) < fst (k_time q, k_value q)) H1) as [_ B1].
  destruct (second_handle_ok _ _ _ _ (L : fst (k_time p, k_value p) < fst (k_time q, k_value q)) H2) as [_ B2].
  destruct (clamped_near r _ _ _ _ t V E B1 B2) as [N X]. exists (clamp r). split; [apply clamp_in|].
  split; [unfold Rdiv; exact N|]. split; [exact X|reflexivity].
Qed.
Print Assumptions C55_bezier_on_curve.

Example C55_bezier_on_curve_case : exists s, 0 <= s <= 1 /\
  Rabs (curve s 0 1 5 10 - 3) <= 4 / 10 ^ 10 * (10 - 0) /\ (0 < s < 1 -> curve s 0 1 5 10 = 3) /\
  curve_at 5 sample 3 = Ok (curve s 0 0 5 4).
Proof.
  apply (C55_bezier_on_curve sample 0 _ _ (1, 0) (5, 5) 3 (proj2 sample_spaced) eq_refl eq_refl sample_handles sample_tame).
  cbn [k_time]. lra.
Qed.

(** A curve has one place for each time, so that the last theorem speaks of one value. *)
Theorem C55_one_value_per_time : forall p q h1 h2 s s', k_time p < k_time q -> handles p q h1 h2 ->
  0 <= s <= 1 -> 0 <= s' <= 1 ->
  curve s (k_time p) (fst h1) (fst h2) (k_time q) = curve s' (k_time p) (fst h1) (fst h2) (k_time q) -> s = s'.
Proof.
  intros p q h1 h2 s s' L H Bs Bs' E. destruct (bezier_case_eq p q h1 h2 0 L H) as (o & n & _ & H1 & H2).
  destruct (first_handle_ok _ _ _ _ (L : fst (k_time p, k_value p) < fst (k_time q, k_value q)) H1) as [_ B1].
  destruct (second_handle_ok _ _ _ _ (L : fst (k_time p, k_value p) < fst (k_time q, k_value q)) H2) as [_ B2].
  cbn [fst] in *. destruct (Rtotal_order s s') as [C|[C|C]]; [|exact C|].
  - pose proof (curve_strict s s' _ _ _ _ ltac:(lra) C ltac:(lra) L B1 B2). lra.
  - pose proof (curve_strict s' s _ _ _ _ ltac:(lra) C ltac:(lra) L B1 B2). lra.
Qed.
Print Assumptions C55_one_value_per_time.

Example C55_one_value_per_time_case : forall s, 0 <= s <= 1 -> curve s 0 1 5 10 = curve (/ 2) 0 1 5 10 -> s = / 2.
Proof.
  intros s B E. eapply (C55_one_value_per_time _ _ _ _ s (/ 2) _ sample_handles B ltac:(lra) E).
  Unshelve. cbn [k_time]. lra.
Qed.

(** The value is never outside of the four values of the curve. *)
Theorem C55_bezier_within : forall l i p q h1 h2 t lo hi,
  spaced 0 l -> nth_error l i = Some p -> nth_error l (S i) = Some q -> handles p q h1 h2 ->
  tame (k_time p) (fst h1) (fst h2) (k_time q) -> k_time p <= t < k_time q ->
  (forall v, In v [k_value p; snd h1; snd h2; k_value q] -> lo <= v <= hi) ->
  exists v, curve_at 5 l t = Ok v /\ lo <= v <= hi.
Proof.
  intros l i p q h1 h2 t lo hi S Hp Hq H T Bt B.
  destruct (C55_bezier_on_curve l i p q h1 h2 t S Hp Hq H T Bt) as (s & Bs & _ & _ & ->).
  eexists. split; [reflexivity|]. apply curve_bounds; try exact Bs; apply B; simpl; auto.
Qed.
Print Assumptions C55_bezier_within.

Example C55_bezier_within_case : exists v, curve_at 5 sample 3 = Ok v /\ 0 <= v <= 5.
Proof.
  apply (C55_bezier_within sample 0 _ _ (1, 0) (5, 5) 3 0 5 (proj2 sample_spaced) eq_refl eq_refl sample_handles sample_tame).
  - cbn [k_time]. lra.
  - cbn [k_value snd In]. intros v [<-|[<-|[<-|[<-|[]]]]]; lra.
Qed.

(** A segment by itself starts and ends exactly at its keyframes. *)
Theorem C55_segment_ends : forall p0 p1 p2 p3 h1 h2, fst p0 < fst p3 -> handle p0 p1 p3 h1 -> handle p3 p2 p0 h2 ->
  tame (fst p0) (fst h1) (fst h2) (fst p3) ->
  bezier_interpolate p0 p1 p2 p3 (fst p0) = Ok (snd p0) /\ bezier_interpolate p0 p1 p2 p3 (fst p3) = Ok (snd p3).
Proof.
  intros p0 p1 p2 p3 h1 h2 L H1 H2 T.
  split; [eapply interpolate_start|eapply interpolate_end]; eassumption.
Qed.
Print Assumptions C55_segment_ends.

Example C55_segment_ends_case : bezier_interpolate (0, 0) (20, 4) (-3, 7) (10, 1) 10 = Ok 1.
Proof.
  apply (C55_segment_ends (0, 0) (20, 4) (-3, 7) (10, 1) (10, 2) (0, 1 + 60 / 13)).
  - cbn [fst]. lra.
  - unfold handle. cbn [fst snd]. split; [intros _; split; lra|]. split; [lra|lra].
  - unfold handle. cbn [fst snd]. split; [intros _; split; [lra|field]|]. split; lra.
  - left. cbv zeta. cbn [fst snd]. replace (10 - 3 * 0 + 3 * 10 - 0) with 40 by ring. rewrite Rabs_pos_eq by lra. lra.
Qed.

(** The curve goes through its keyframes, for all four kinds. *)
Theorem C55_through_keyframes : forall kind l i p, In kind [2; 3; 5; 6]%Z ->
  spaced (if (kind =? 6)%Z then 5 / 2 / 10 ^ 10 else 0) l -> (kind = 5%Z -> tame_keys l) ->
  nth_error l i = Some p -> curve_at kind l (k_time p) = Ok (k_value p).
Proof.
  intros kind l i p K S T Hp. destruct (nth_error l (Datatypes.S i)) as [q|] eqn:Hq.
  - destruct (S i p q Hp Hq) as [L _].
    rewrite (curve_inside _ kind l (k_time p) i p q S Hp Hq) by lra. now apply segment_start.
  - eapply curve_after; try eassumption. lra.
Qed.
Print Assumptions C55_through_keyframes.

Example C55_through_keyframes_case : curve_at 6 sample 10 = Ok 4 /\ curve_at 5 sample 10 = Ok 4.
Proof.
  split.
  2:{ apply (C55_through_keyframes 5 sample 1 {| k_time := 10; k_value := 4; k_pp := [(5%Z, -5); (6%Z, 1)] |});
      [simpl; auto|exact (proj2 sample_spaced)|intros _; exact sample_tame_keys|reflexivity]. }
  apply (C55_through_keyframes 6 sample 1 {| k_time := 10; k_value := 4; k_pp := [(5%Z, -5); (6%Z, 1)] |});
    [simpl; auto|exact (proj1 sample_spaced)|discriminate|reflexivity].
Qed.

(** Outside of the keyframes the first or the last value holds. *)
Theorem C55_outside : forall kind l t p, spaced 0 l ->
  (nth_error l 0 = Some p -> t < k_time p -> curve_at kind l t = Ok (k_value p)) /\
  (forall i, nth_error l i = Some p -> nth_error l (S i) = None -> k_time p <= t -> curve_at kind l t = Ok (k_value p)).
Proof.
  intros kind l t p S. split; intros; [eapply curve_before|eapply curve_after]; eassumption.
Qed.
Print Assumptions C55_outside.

Example C55_outside_case : curve_at 5 sample (-1) = Ok 0 /\ curve_at 6 sample 100 = Ok 3.
Proof.
  split.
  - refine (proj1 (C55_outside 5 sample (-1) _ (proj2 sample_spaced)) eq_refl _). cbn [k_time]. lra.
  - refine (proj2 (C55_outside 6 sample 100 _ (proj2 sample_spaced)) 2%nat eq_refl eq_refl _). cbn [k_time]. lra.
Qed.

(** Two keyframes at one time: a name error, from a line that was never run. *)
Theorem C55_equal_times_refuted : exists l t p q, l = [p; q] /\ k_time p <= k_time q /\ k_time p <= t <= k_time q /\
  curve_at 5 l t = Err NameErr /\ curve_at 6 l t = Err ZeroDivisionErr /\ curve_at 3 l t = Err ZeroDivisionErr.
Proof.
  set (p := {| k_time := 1; k_value := 0; k_pp := [] |}). set (q := {| k_time := 1; k_value := 2; k_pp := [] |}).
  exists [p; q], 1, p, q. split; [reflexivity|]. cbn [p q k_time]. split; [lra|]. split; [lra|].
  assert (nearest_key [p; q] 1 = Ok 0%Z) as N.
  { unfold nearest_key. change (key_search 3 [p; q] 1 0 1 = Ok 0%Z). cbn [key_search Z.ltb Z.compare].
    change (Z.to_nat ((0 + 1) / 2)) with O. cbn [nth_error]. change (k_time p) with 1. rewrite (ltb_false 1 1) by lra. reflexivity. }
  unfold curve_at. rewrite N. cbn [rbind Z.to_nat nth_error]. change (k_time p) with 1. rewrite (ltb_false 1 1) by lra.
  cbn [orb]. change (Z.to_nat (0 + 1)) with 1%nat. cbn [nth_error].
  change (len [p; q] <=? 0 + 1)%Z with false. cbn [Z.eqb Pos.eqb]. split; [|split].
  - unfold bezier_case, bezier_interpolate. unfold p, q. cbn [k_time k_value k_pp fst snd]. rewrite leb_true by lra. reflexivity.
  - unfold cubic_case. change (0 <=? 0 - 1)%Z with false.
    change (0 + 2 <? len [p; q])%Z with false. cbn [rbind]. unfold cubic_interpolate, calculate_tangent. unfold p, q. cbn [k_time k_value].
    unfold pdiv at 1. rewrite eqb_true by lra. reflexivity.
  - unfold p, q. cbn [k_time k_value]. unfold pdiv. rewrite eqb_true by lra. reflexivity.
Qed.
Print Assumptions C55_equal_times_refuted.

(** Keyframes very close together: the solver finds no root, and an assertion fails. *)
Theorem C55_close_times_refuted : exists p q, k_time p < k_time q /\
  exists t, k_time p < t < k_time q /\ curve_at 5 [p; q] t = Err AssertionErr.
Proof.
  set (d := / 10 ^ 11). assert (0 < d) as Pd by (apply Rinv_0_lt_compat, pow_lt; lra).
  set (p := {| k_time := 0; k_value := 0; k_pp := [] |}). set (q := {| k_time := d; k_value := 2; k_pp := [] |}).
  exists p, q. cbn [p q k_time]. split; [exact Pd|]. exists (d / 2). split; [lra|].
  assert (spaced 0 [p; q]) as S.
  { intros [|[|i]] a b Ha Hb; cbn in Ha, Hb; try discriminate.
    injection Ha as <-. injection Hb as <-. cbn [p q k_time]. lra. }
  rewrite (curve_inside 0 5 [p; q] (d / 2) 0 p q S eq_refl eq_refl) by (cbn [p q k_time]; lra).
  unfold segment. cbn [Z.eqb Pos.eqb]. unfold bezier_case, bezier_interpolate. cbn [p q k_time k_value k_pp out_tangent in_tangent pp_get fst snd].
  rewrite leb_false by lra. unfold first_handle, second_handle. cbn [fst snd]. rewrite !ltb_false by lra. cbn [rbind fst snd].
  assert (10 * d = EPSILON) as E10 by (unfold d, EPSILON; field). pose proof eps_pos as Pe.
  unfold bezier_cubic_roots. cbv zeta. rewrite !ltb_true; [reflexivity|..].
  - replace (-3 * (0 - d / 2) + 3 * (0 + 0 - d / 2)) with 0 by field. rewrite Rabs_R0. exact Pe.
  - replace (3 * (0 - d / 2) - 6 * (0 + 0 - d / 2) + 3 * (d + 0 - d / 2)) with (3 * d) by field. rewrite Rabs_pos_eq; lra.
  - replace (- (0 - d / 2) + 3 * (0 + 0 - d / 2) - 3 * (d + 0 - d / 2) + (d - d / 2)) with (- (2 * d)) by field.
    rewrite Rabs_Ropp, Rabs_pos_eq; lra.
Qed.
Print Assumptions C55_close_times_refuted.

(** A curve that is very nearly a parabola: keyframes far apart, and a domain error from [sqrt]. *)
Theorem C55_nearly_flat_refuted : exists p q, k_time p + 1 <= k_time q /\
  exists t, k_time p < t < k_time q /\ curve_at 5 [p; q] t = Err ValueErr.
Proof.
  set (d := / 10 ^ 11). assert (0 < d) as Pd by (apply Rinv_0_lt_compat, pow_lt; lra).
  set (p := {| k_time := 0; k_value := 0; k_pp := [(7%Z, 2 / 3)] |}).
  set (q := {| k_time := 1 + d; k_value := 2; k_pp := [(5%Z, - d)] |}).
  exists p, q. cbn [p q k_time]. split; [lra|]. exists (1 + d / 2). split; [lra|].
  assert (spaced 0 [p; q]) as S.
  { intros [|[|i]] a b Ha Hb; cbn in Ha, Hb; try discriminate.
    injection Ha as <-. injection Hb as <-. cbn [p q k_time]. lra. }
  rewrite (curve_inside 0 5 [p; q] (1 + d / 2) 0 p q S eq_refl eq_refl) by (cbn [p q k_time]; lra).
  unfold segment. cbn [Z.eqb Pos.eqb]. unfold bezier_case, bezier_interpolate.
  cbn [p q k_time k_value k_pp out_tangent in_tangent pp_get fst snd Z.eqb Pos.eqb].
  rewrite leb_false by lra. unfold first_handle, second_handle. cbn [fst snd]. rewrite !ltb_false by lra. cbn [rbind fst snd].
  assert (10 * d = EPSILON) as E10 by (unfold d, EPSILON; field). pose proof eps_pos as Pe. pose proof eps_small as Es.
  unfold bezier_cubic_roots. cbv zeta.
  replace (- (0 - (1 + d / 2)) + 3 * (0 + 2 / 3 - (1 + d / 2)) - 3 * (1 + d + - d - (1 + d / 2)) + (1 + d - (1 + d / 2))) with d by field.
  replace (3 * (0 - (1 + d / 2)) - 6 * (0 + 2 / 3 - (1 + d / 2)) + 3 * (1 + d + - d - (1 + d / 2))) with (-1) by field.
  replace (-3 * (0 - (1 + d / 2)) + 3 * (0 + 2 / 3 - (1 + d / 2))) with 2 by field.
  rewrite ltb_true by (rewrite Rabs_pos_eq; lra). rewrite ltb_false by (rewrite Rabs_left; lra).
  unfold psqrt. rewrite ltb_true by lra. reflexivity.
Qed.
Print Assumptions C55_nearly_flat_refuted.

(** A spline stays between the values of the keyframes on both sides: it never overshoots. *)
Theorem C56_no_overshoot : forall l i p q t, spaced (5 / 2 / 10 ^ 10) l ->
  nth_error l i = Some p -> nth_error l (S i) = Some q -> k_time p <= t <= k_time q ->
  exists v, curve_at 6 l t = Ok v /\ between (k_value p) (k_value q) v.
Proof.
  intros l i p q t S Hp Hq Bt. destruct (S i p q Hp Hq) as [L _].
  destruct (Req_dec t (k_time q)) as [->|N].
  - exists (k_value q). split; [|unfold between; lra]. apply (C55_through_keyframes 6 l (Datatypes.S i) q); auto; [simpl; auto|discriminate].
  - rewrite (curve_inside _ 6 l t i p q S Hp Hq) by lra. unfold segment. cbn [Z.eqb Pos.eqb].
    destruct (spline_segment l i p q S Hp Hq) as (y1 & y2 & Y1 & Y2 & H). destruct (H t Bt) as (s & Bs & _ & ->).
    eexists. split; [reflexivity|]. unfold between in *. destruct (Rle_dec (k_value p) (k_value q)).
    + left. apply curve_bounds; lra.
    + right. apply curve_bounds; lra.
Qed.
Print Assumptions C56_no_overshoot.

Example C56_no_overshoot_case : exists v, curve_at 6 sample 7 = Ok v /\ between 0 4 v.
Proof.
  apply (C56_no_overshoot sample 0 _ _ 7 (proj1 sample_spaced) eq_refl eq_refl). cbn [k_time]. lra.
Qed.

(** And it does not turn round on the way: it is monotone between two keyframes. *)
Theorem C56_monotone : forall l i p q t t', spaced (5 / 2 / 10 ^ 10) l ->
  nth_error l i = Some p -> nth_error l (S i) = Some q -> k_time p <= t -> t <= t' -> t' <= k_time q ->
  exists v v', curve_at 6 l t = Ok v /\ curve_at 6 l t' = Ok v' /\
    (k_value p <= k_value q -> v <= v') /\ (k_value q <= k_value p -> v' <= v).
Proof.
  intros l i p q t t' S Hp Hq B1 B2 B3. destruct (S i p q Hp Hq) as [L _].
  destruct (Req_dec t' (k_time q)) as [->|N'].
  - destruct (C56_no_overshoot l i p q t S Hp Hq ltac:(lra)) as (v & E & B). exists v, (k_value q).
    split; [exact E|]. split; [|unfold between in B; lra].
    apply (C55_through_keyframes 6 l (Datatypes.S i) q); auto; [simpl; auto|discriminate].
  - rewrite (curve_inside _ 6 l t i p q S Hp Hq) by lra. rewrite (curve_inside _ 6 l t' i p q S Hp Hq) by lra.
    unfold segment. cbn [Z.eqb Pos.eqb].
    destruct (spline_segment l i p q S Hp Hq) as (y1 & y2 & Y1 & Y2 & H).
    destruct (H t ltac:(lra)) as (s & Bs & Es & ->). destruct (H t' ltac:(lra)) as (s' & Bs' & Es' & ->).
    assert (s <= s') as Ls.
    { apply (spline_unique s s' (k_time p) (k_time q - k_time p)); [lra|].
      replace (k_time p + (k_time q - k_time p)) with (k_time q) by ring. rewrite Es, Es'. exact B2. }
    do 2 eexists. split; [reflexivity|]. split; [reflexivity|]. unfold between in *. split; intros C.
    + apply curve_mono; lra.
    + apply Ropp_le_cancel. rewrite <- !curve_opp. apply curve_mono; lra.
Qed.
Print Assumptions C56_monotone.

Example C56_monotone_case : exists v v', curve_at 6 sample 2 = Ok v /\ curve_at 6 sample 7 = Ok v' /\ v <= v'.
Proof.
  destruct (C56_monotone sample 0 _ _ 2 7 (proj1 sample_spaced) eq_refl eq_refl) as (v & v' & A & B & C & _);
    cbn [k_time k_value] in *; try lra. exists v, v'. split; [exact A|]. split; [exact B|]. apply C. lra.
Qed.

(** The spline is a Bezier curve with its handles at two fifths of the way, at the very time asked for. *)
Theorem C56_on_curve : forall l i p q, spaced (5 / 2 / 10 ^ 10) l ->
  nth_error l i = Some p -> nth_error l (S i) = Some q ->
  exists y1 y2, between (k_value p) (k_value q) y1 /\ between (k_value p) (k_value q) y2 /\
    forall s, 0 <= s < 1 ->
      curve_at 6 l (curve s (k_time p) (k_time p + 2 / 5 * (k_time q - k_time p)) (k_time q - 2 / 5 * (k_time q - k_time p)) (k_time q)) =
      Ok (curve s (k_value p) y1 y2 (k_value q)).
Proof.
  intros l i p q S Hp Hq. destruct (S i p q Hp Hq) as [L _].
  destruct (spline_segment l i p q S Hp Hq) as (y1 & y2 & Y1 & Y2 & H). exists y1, y2.
  split; [exact Y1|]. split; [exact Y2|]. intros s Bs. replace (2 / 5) with (4 / 10) by field.
  set (D := k_time q - k_time p) in *. assert (0 < D) as PD by (unfold D; lra).
  assert (k_time p + D = k_time q) as Eq by (unfold D; ring). set (t := curve s _ _ _ _).
  assert (k_time p <= t) as B1.
  { unfold t. destruct (Req_dec s 0) as [->|]; [rewrite curve_0; lra|].
    left. pose proof (spline_times 0 s (k_time p) D PD ltac:(lra)) as X. rewrite curve_0, Eq in X. exact X. }
  assert (t < k_time q) as B2.
  { pose proof (spline_times s 1 (k_time p) D PD ltac:(lra)) as X. rewrite curve_1, Eq in X. exact X. }
  rewrite (curve_inside _ 6 l t i p q S Hp Hq) by lra. unfold segment. cbn [Z.eqb Pos.eqb].
  destruct (H t ltac:(lra)) as (s' & Bs' & Es & ->).
  assert (s' = s) as ->; [|reflexivity].
  apply Rle_antisym; apply (spline_unique _ _ (k_time p) D PD); rewrite Eq, Es; apply Rle_refl.
Qed.
Print Assumptions C56_on_curve.

Example C56_on_curve_case : exists y1 y2, between 0 4 y1 /\ between 0 4 y2 /\
  curve_at 6 sample (curve (/ 2) 0 (0 + 2 / 5 * (10 - 0)) (10 - 2 / 5 * (10 - 0)) 10) = Ok (curve (/ 2) 0 y1 y2 4).
Proof.
  destruct (C56_on_curve sample 0 _ _ (proj1 sample_spaced) eq_refl eq_refl) as (y1 & y2 & A & B & C).
  exists y1, y2. split; [exact A|]. split; [exact B|]. apply C. lra.
Qed.

(** A keyframe that is higher or lower than both its neighbours is a flat top: the tangent is level. *)
Theorem C56_flat_at_extremes : forall p0 p1 p2 io v, fst p0 < fst p1 -> fst p1 < fst p2 ->
  (snd p0 < snd p1 /\ snd p2 < snd p1 \/ snd p1 < snd p0 /\ snd p1 < snd p2) ->
  calculate_tangent p0 p1 p2 io = Ok v -> snd v = 0.
Proof.
  intros p0 p1 p2 io v L1 L2 X E. destruct (tangent p0 p1 p2 io L1 L2) as (ty & E' & A & B). rewrite E in E'.
  injection E' as ->. assert (ty = 0) as -> by (unfold between in A, B; lra). destruct io; cbn [snd]; ring.
Qed.
Print Assumptions C56_flat_at_extremes.

Example C56_flat_at_extremes_case : exists v, calculate_tangent (0, 0) (1, 5) (3, 2) false = Ok v /\ snd v = 0.
Proof.
  destruct (tangent (0, 0) (1, 5) (3, 2) false) as (ty & E & _); cbn [fst]; try lra. eexists. split; [exact E|].
  eapply (C56_flat_at_extremes (0, 0) (1, 5) (3, 2) false); cbn [fst snd]; try lra. exact E.
Qed.
