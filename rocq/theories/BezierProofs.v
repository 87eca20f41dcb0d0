(** Lemmas about Bezier.v. *)
From Coq Require Import ZArith Reals List Bool Lra Lia Psatz.
From Verif Require Import Base Bezier BezierSpec.
Import ListNotations.
Open Scope R_scope.

(** ** Comparisons *)

Lemma ltb_spec : forall a b, reflect (a < b) (ltb a b).
Proof. intros a b. unfold ltb. destruct (Rlt_dec a b); constructor; auto. Qed.
Lemma leb_spec : forall a b, reflect (a <= b) (leb a b).
Proof. intros a b. unfold leb. destruct (Rle_dec a b); constructor; auto. Qed.
Lemma eqb_spec : forall a b, reflect (a = b) (eqb a b).
Proof. intros a b. unfold eqb. destruct (Req_EM_T a b); constructor; auto. Qed.

Lemma ltb_true : forall a b, a < b -> ltb a b = true.
Proof. intros a b H. destruct (ltb_spec a b); [reflexivity|contradiction]. Qed.
Lemma ltb_false : forall a b, b <= a -> ltb a b = false.
Proof. intros a b H. destruct (ltb_spec a b); [lra|reflexivity]. Qed.
Lemma leb_true : forall a b, a <= b -> leb a b = true.
Proof. intros a b H. destruct (leb_spec a b); [reflexivity|contradiction]. Qed.
Lemma leb_false : forall a b, b < a -> leb a b = false.
Proof. intros a b H. destruct (leb_spec a b); [lra|reflexivity]. Qed.
Lemma eqb_true : forall a b, a = b -> eqb a b = true.
Proof. intros a b H. destruct (eqb_spec a b); [reflexivity|contradiction]. Qed.
Lemma eqb_false : forall a b, a <> b -> eqb a b = false.
Proof. intros a b H. destruct (eqb_spec a b); [contradiction|reflexivity]. Qed.

Lemma pdiv_ok : forall a b, b <> 0 -> pdiv a b = Ok (a / b).
Proof. intros a b H. unfold pdiv. now rewrite eqb_false. Qed.
Lemma psqrt_ok : forall x, 0 <= x -> psqrt x = Ok (sqrt x).
Proof. intros x H. unfold psqrt. now rewrite ltb_false. Qed.

Lemma eps_pos : 0 < EPSILON.
Proof. unfold EPSILON. apply Rinv_0_lt_compat. apply pow_lt. lra. Qed.
Lemma eps_small : EPSILON <= / 1000.
Proof. unfold EPSILON. apply Rinv_le_contravar; simpl; lra. Qed.

Lemma valid_iff : forall r, valid_root r = true <-> - EPSILON <= r <= 1 + EPSILON.
Proof.
  intros r. unfold valid_root. destruct (leb_spec (- EPSILON) r), (leb_spec r (1 + EPSILON));
    simpl; split; intros; try discriminate; try reflexivity; lra.
Qed.

(** ** Cube roots *)

Lemma cube_inj : forall x y, x * x * x = y * y * y -> x = y.
Proof.
  intros x y H. assert ((x - y) * (x * x + x * y + y * y) = 0) as E by nra.
  apply Rmult_integral in E as [E|E]; [lra|].
  assert (x = 0 /\ y = 0) as [-> ->]; [|reflexivity].
  assert (2 * (x * x + x * y + y * y) = (x + y) * (x + y) + x * x + y * y) as E2 by ring.
  assert (x * x + y * y <= 0) by nra. split; nra.
Qed.

Lemma third_power_cube : forall x, 0 <= x -> third_power x * third_power x * third_power x = x.
Proof.
  intros x H. unfold third_power. destruct (eqb_spec x 0) as [->|N]; [ring|].
  rewrite <- !Rpower_plus. replace (1 / 3 + 1 / 3 + 1 / 3) with 1 by field. apply Rpower_1. lra.
Qed.

Lemma third_power_nonneg : forall x, 0 <= third_power x.
Proof.
  intros x. unfold third_power. destruct (eqb_spec x 0); [lra|]. left. unfold Rpower. apply exp_pos.
Qed.

Lemma cube_root_cube : forall x, cube_root x * cube_root x * cube_root x = x.
Proof.
  intros x. unfold cube_root. destruct (ltb_spec x 0) as [L|L].
  - rewrite Rabs_left by lra. pose proof (third_power_cube (- x) ltac:(lra)) as E.
    set (c := third_power (- x)) in *. replace (c * -1 * (c * -1) * (c * -1)) with (- (c * c * c)) by ring. rewrite E. ring.
  - apply third_power_cube. lra.
Qed.

Lemma cube_root_nonneg : forall x, 0 <= x -> 0 <= cube_root x.
Proof. intros x H. unfold cube_root. rewrite ltb_false by lra. apply third_power_nonneg. Qed.

(** ** The solver *)

(** What a list of roots of [f] must be for the caller: each one valid and a zero, and each zero
    between 0 and 1 in it. *)
Definition good_roots (f : R -> R) (l : list R) : Prop :=
  (forall r, In r l -> - EPSILON <= r <= 1 + EPSILON /\ f r = 0) /\
  (forall r, 0 <= r <= 1 -> f r = 0 -> In r l).

Lemma filter_good : forall f l, (forall r, f r = 0 <-> In r l) -> good_roots f (filter valid_root l).
Proof.
  intros f l H. split.
  - intros r I. apply filter_In in I as [I V]. apply valid_iff in V. split; [exact V|]. now apply H.
  - intros r B Z. apply filter_In. split; [now apply H|]. apply valid_iff. pose proof eps_pos. lra.
Qed.

Lemma good_ext : forall f g l, (forall r, f r = 0 <-> g r = 0) -> good_roots f l -> good_roots g l.
Proof.
  intros f g l E [A B]. split.
  - intros r I. destruct (A r I). split; [assumption|]. now apply E.
  - intros r Hr Z. apply B; [assumption|]. now apply E.
Qed.

Lemma cos_3 : forall x, cos (3 * x) = 4 * (cos x * cos x * cos x) - 3 * cos x.
Proof.
  intros x. replace (3 * x) with (2 * x + x) by ring. rewrite cos_plus, cos_2a, sin_2a.
  pose proof (sin2_cos2 x) as E. unfold Rsqr in E. 
  replace (sin x * sin x) with (1 - cos x * cos x) by lra.
  replace (2 * sin x * cos x * sin x) with (2 * (sin x * sin x) * cos x) by ring.
  replace (sin x * sin x) with (1 - cos x * cos x) by lra. ring.
Qed.

Lemma cos_third1 : forall x, cos ((x + 2 * PI) / 3) = - cos (x / 3) / 2 - sqrt 3 / 2 * sin (x / 3).
Proof.
  intros x. replace ((x + 2 * PI) / 3) with (x / 3 + 2 * (PI / 3)) by field.
  rewrite cos_plus, cos_2PI3, sin_2PI3. field.
Qed.

Lemma cos_third2 : forall x, cos ((x + 4 * PI) / 3) = - cos (x / 3) / 2 + sqrt 3 / 2 * sin (x / 3).
Proof.
  intros x. replace ((x + 4 * PI) / 3) with (x / 3 - 2 * (PI / 3) + 2 * PI) by field.
  rewrite cos_plus, cos_2PI, sin_2PI, cos_minus, cos_2PI3, sin_2PI3. field.
Qed.

(** The depressed cubic with three roots. *)
Lemma trig_factor : forall p q m c s y, p = -3 * (m * m) -> c * c + s * s = 1 ->
  q = -2 * (m * m * m) * (4 * (c * c * c) - 3 * c) ->
  y * y * y + p * y + q =
  (y - 2 * m * c) * (y - 2 * m * (- c / 2 - sqrt 3 / 2 * s)) * (y - 2 * m * (- c / 2 + sqrt 3 / 2 * s)).
Proof.
  intros p q m c s y -> E ->. pose proof (sqrt_sqrt 3 ltac:(lra)) as T. set (w := sqrt 3) in *.
  assert (s * s = 1 - c * c) as S by lra.
  replace ((y - 2 * m * c) * (y - 2 * m * (- c / 2 - w / 2 * s)) * (y - 2 * m * (- c / 2 + w / 2 * s)))
    with ((y - 2 * m * c) * ((y + m * c) * (y + m * c) - (m * m) * (w * w) * (s * s))) by field.
  rewrite T, S. ring.
Qed.

Lemma cubic_three : forall a b c p q, p = (3 * b - a * a) / 3 -> q = (2 * a * a * a - 9 * a * b + 27 * c) / 27 ->
  forall t, t * t * t + a * (t * t) + b * t + c = (t + a / 3) * (t + a / 3) * (t + a / 3) + p * (t + a / 3) + q.
Proof. intros a b c p q -> -> t. field. Qed.

Lemma root_iff3 : forall (f : R -> R) k y0 y1 y2, (forall t, f t = (t + k - y0) * (t + k - y1) * (t + k - y2)) ->
  forall r, f r = 0 <-> In r [y0 - k; y1 - k; y2 - k].
Proof.
  intros f k y0 y1 y2 H r. rewrite H. simpl. split.
  - intros E. apply Rmult_integral in E as [E|E]; [apply Rmult_integral in E as [E|E]|]; 
      [left|right; left|right; right; left]; lra.
  - intros [<-|[<-|[<-|[]]]]; ring.
Qed.

Lemma roots_cubic : forall a b c d, EPSILON <= Rabs d ->
  forall pa pb pc pd, a = 3 * pa - 6 * pb + 3 * pc -> b = -3 * pa + 3 * pb -> c = pa -> d = - pa + 3 * pb - 3 * pc + pd ->
  exists l, bezier_cubic_roots pa pb pc pd = Ok l /\
    good_roots (fun t => d * (t * t * t) + a * (t * t) + b * t + c) l.
Proof.
  intros a b c d D pa pb pc pd Ea Eb Ec Ed. unfold bezier_cubic_roots. rewrite <- Ea, <- Eb, <- Ed. rewrite Ec.
  rewrite <- Ec. clear Ea Eb Ed. rewrite ltb_false by lra.
  assert (d <> 0) as Nd. { intros ->. rewrite Rabs_R0 in D. pose proof eps_pos. lra. }
  rewrite !pdiv_ok by assumption. cbn [rbind].
  set (a' := a / d). set (b' := b / d). set (c' := c / d). cbv zeta.
  assert (forall r, r * r * r + a' * (r * r) + b' * r + c' = 0 <-> d * (r * r * r) + a * (r * r) + b * r + c = 0) as Eq.
  { intros r. replace (d * (r * r * r) + a * (r * r) + b * r + c) with
      (d * (r * r * r + a' * (r * r) + b' * r + c')) by (unfold a', b', c'; field; exact Nd).
    split; intros E; [rewrite E; ring|]. apply Rmult_integral in E as [E|E]; [contradiction|exact E]. }
  remember ((3 * b' - a' * a') / 3) as p eqn:Hp. 
  remember ((2 * a' * a' * a' - 9 * a' * b' + 27 * c') / 27) as q eqn:Hq.
  pose proof (cubic_three a' b' c' p q Hp Hq) as Sh. clearbody a' b' c'. clear Hp Hq.
  set (disc := q / 2 * (q / 2) + p / 3 * (p / 3) * (p / 3)).
  destruct (ltb_spec disc 0) as [L|L]; [|destruct (eqb_spec disc 0) as [Z|Z]].
  - assert (p < 0) as Np. { unfold disc in L. destruct (Rlt_dec p 0); [assumption|]. exfalso.
      assert (0 <= p / 3 * (p / 3) * (p / 3)) by (apply Rmult_le_pos; [apply Rmult_le_pos|]; lra).
      assert (0 <= q / 2 * (q / 2)) by (apply Rle_0_sqr). lra. }
    set (k := - p / 3 * (- p / 3) * (- p / 3)).
    assert (0 < k) as Pk by (unfold k; repeat apply Rmult_lt_0_compat; lra).
    rewrite psqrt_ok by lra. cbn [rbind].
    set (r := sqrt k). assert (0 < r) as Pr by (apply sqrt_lt_R0; exact Pk).
    assert (r * r = k) as Rr by (apply sqrt_sqrt; lra).
    rewrite pdiv_ok by lra. cbn [rbind].
    set (t := - q / (2 * r)). assert (2 * r * t = - q) as Et by (unfold t; field; lra).
    assert (-1 <= t <= 1) as Bt.
    { assert (t * t < 1) as T2.
      { apply Rmult_lt_reg_l with (4 * (r * r)); [nra|].
        replace (4 * (r * r) * (t * t)) with ((2 * r * t) * (2 * r * t)) by ring. rewrite Et, Rr. unfold k. unfold disc in L. 
        replace (- q * - q) with (4 * (q / 2 * (q / 2))) by field. 
        replace (- p / 3 * (- p / 3) * (- p / 3)) with (- (p / 3 * (p / 3) * (p / 3))) by field. lra. }
      split; nra. }
    replace (Rmax (-1) (Rmin 1 t)) with t by (rewrite Rmin_right, Rmax_right; lra).
    set (phi := acos t). assert (cos phi = t) as Cp by (apply cos_acos; exact Bt).
    set (m := cube_root r). pose proof (cube_root_cube r) as Cm. fold m in Cm.
    assert (m * m = - p / 3) as M2. { apply cube_inj. transitivity ((m * m * m) * (m * m * m)); [ring|]. rewrite Cm. exact Rr. }
    rewrite cos_third1, cos_third2. eexists. split; [reflexivity|]. eapply good_ext; [exact Eq|]. apply filter_good.
    apply root_iff3. intros t'. rewrite Sh.
    rewrite (trig_factor p q m (cos (phi / 3)) (sin (phi / 3))); [reflexivity| | |].
    + rewrite M2. field.
    + pose proof (sin2_cos2 (phi / 3)) as E. unfold Rsqr in E. lra.
    + rewrite <- cos_3. replace (3 * (phi / 3)) with phi by field. rewrite Cp, Cm. lra.
  - set (u := if ltb (q / 2) 0 then cube_root (- (q / 2)) else - cube_root (q / 2)).
    assert (u * u * u = - (q / 2)) as U. { unfold u. destruct (ltb (q / 2) 0); [apply cube_root_cube|].
      pose proof (cube_root_cube (q / 2)) as E. set (x := cube_root (q / 2)) in *. rewrite <- E. ring. }
    assert (p = -3 * (u * u)) as P.
    { assert (p / 3 = - (u * u)) as E; [|lra]. apply cube_inj.
      transitivity (- ((u * u * u) * (u * u * u))); [|ring]. rewrite U. unfold disc in Z. lra. }
    eexists. split; [reflexivity|]. eapply good_ext; [exact Eq|]. apply filter_good.
    intros r. rewrite Sh. set (y := r + a' / 3).
    replace (y * y * y + p * y + q) with ((y - 2 * u) * (y + u) * (y + u)).
    + unfold y. simpl. split.
      * intros E. apply Rmult_integral in E as [E|E]; [apply Rmult_integral in E as [E|E]|]; [left|right; left|right; left]; lra.
      * intros [<-|[<-|[]]]; ring.
    + rewrite P. replace q with (-2 * (u * u * u)) by lra. ring.
  - assert (0 < disc) as Pd by lra. rewrite psqrt_ok by lra. cbn [rbind].
    set (sd := sqrt disc). assert (0 < sd) as Ps by (apply sqrt_lt_R0; exact Pd).
    assert (sd * sd = disc) as S2 by (apply sqrt_sqrt; lra).
    pose proof (cube_root_cube (sd - q / 2)) as U. pose proof (cube_root_cube (sd + q / 2)) as V.
    set (u := cube_root (sd - q / 2)) in *. set (v := cube_root (sd + q / 2)) in *.
    assert (u * v = p / 3) as UV.
    { apply cube_inj. transitivity ((u * u * u) * (v * v * v)); [ring|]. rewrite U, V.
      replace ((sd - q / 2) * (sd + q / 2)) with (sd * sd - q / 2 * (q / 2)) by ring. rewrite S2. unfold disc. ring. }
    assert (u + v <> 0) as N. { intros E. assert (u = - v) as E' by lra. rewrite E' in U.
      replace (- v * - v * - v) with (- (v * v * v)) in U by ring. rewrite V in U. lra. }
    eexists. split; [reflexivity|]. eapply good_ext; [exact Eq|]. apply filter_good.
    intros r. rewrite Sh. set (y := r + a' / 3).
    assert (y * y * y + p * y + q = (y - (u - v)) * (y * y + (u - v) * y + ((u - v) * (u - v) + p))) as F.
    { replace p with (3 * (u * v)) by lra. replace q with (v * v * v - u * u * u) by lra. ring. }
    rewrite F. simpl. split.
    + intros E. apply Rmult_integral in E as [E|E]; [left; unfold y in E; lra|exfalso].
      assert (4 * (y * y + (u - v) * y + ((u - v) * (u - v) + p)) =
              (2 * y + (u - v)) * (2 * y + (u - v)) + 3 * ((u + v) * (u + v))) as E4
        by (replace p with (3 * (u * v)) by lra; ring).
      assert (0 < (u + v) * (u + v)) by (apply Rsqr_pos_lt; exact N).
      assert (0 <= (2 * y + (u - v)) * (2 * y + (u - v))) by apply Rle_0_sqr. lra.
    + intros [E|[]]. replace (y - (u - v)) with 0 by (unfold y; rewrite <- E; ring). ring.
Qed.

Lemma roots_quadratic : forall a b c, EPSILON <= Rabs a ->
  forall pa pb pc pd, a = 3 * pa - 6 * pb + 3 * pc -> b = -3 * pa + 3 * pb -> c = pa -> 0 = - pa + 3 * pb - 3 * pc + pd ->
  (exists r, a * (r * r) + b * r + c = 0) ->
  exists l, bezier_cubic_roots pa pb pc pd = Ok l /\ good_roots (fun t => a * (t * t) + b * t + c) l.
Proof.
  intros a b c D pa pb pc pd Ea Eb Ec Ed [r0 Hr]. unfold bezier_cubic_roots. rewrite <- Ea, <- Eb, <- Ed. rewrite Ec.
  rewrite <- Ec. rewrite Rabs_R0, ltb_true by apply eps_pos. rewrite ltb_false by lra.
  assert (a <> 0) as Na. { intros ->. rewrite Rabs_R0 in D. pose proof eps_pos. lra. }
  assert (0 <= b * b - 4 * a * c) as Pd.
  { replace (b * b - 4 * a * c) with ((2 * a * r0 + b) * (2 * a * r0 + b)); [apply Rle_0_sqr|].
    replace c with (- (a * (r0 * r0) + b * r0)) by lra. ring. }
  rewrite psqrt_ok by exact Pd. cbn [rbind]. rewrite !pdiv_ok by lra. cbn [rbind].
  eexists. split; [reflexivity|]. apply filter_good. pose proof (sqrt_sqrt _ Pd) as Q. set (q := sqrt (b * b - 4 * a * c)) in *.
  intros r. assert (4 * a * (a * (r * r) + b * r + c) = (2 * a * r + b - q) * (2 * a * r + b + q)) as E.
  { replace ((2 * a * r + b - q) * (2 * a * r + b + q)) with ((2 * a * r + b) * (2 * a * r + b) - q * q) by ring. rewrite Q. ring. }
  simpl. split.
  - intros Z. rewrite Z in E. symmetry in E. rewrite Rmult_0_r in E. apply Rmult_integral in E as [E|E].
    + left. replace (q - b) with (2 * a * r) by lra. field. exact Na.
    + right. left. replace (- b - q) with (2 * a * r) by lra. field. exact Na.
  - intros H. apply Rmult_eq_reg_l with (4 * a); [|lra]. rewrite E, Rmult_0_r. destruct H as [<-|[<-|[]]].
    + replace (2 * a * ((q - b) / (2 * a)) + b - q) with 0 by (field; exact Na). ring.
    + replace (2 * a * ((- b - q) / (2 * a)) + b + q) with 0 by (field; exact Na). ring.
Qed.

Lemma roots_linear : forall b c, EPSILON <= Rabs b ->
  forall pa pb pc pd, 0 = 3 * pa - 6 * pb + 3 * pc -> b = -3 * pa + 3 * pb -> c = pa -> 0 = - pa + 3 * pb - 3 * pc + pd ->
  exists l, bezier_cubic_roots pa pb pc pd = Ok l /\ good_roots (fun t => b * t + c) l.
Proof.
  intros b c D pa pb pc pd Ea Eb Ec Ed. unfold bezier_cubic_roots. rewrite <- Ea, <- Eb, <- Ed. rewrite Ec.
  rewrite <- Ec. rewrite Rabs_R0, !(ltb_true 0) by apply eps_pos. rewrite ltb_false by lra.
  assert (b <> 0) as Nb. { intros ->. rewrite Rabs_R0 in D. pose proof eps_pos. lra. }
  rewrite pdiv_ok by exact Nb. cbn [rbind]. eexists. split; [reflexivity|]. apply filter_good.
  intros r. cbn [In]. split.
  - intros Z. left. replace (- c) with (b * r) by lra. field. exact Nb.
  - intros [<-|[]]. field. exact Nb.
Qed.

(** ** The curve *)

Lemma curve_bezier : forall s x0 x1 x2 x3, curve s x0 x1 x2 x3 = cubic_bezier x0 x1 x2 x3 s.
Proof. intros. unfold curve, cubic_bezier, mix. ring. Qed.

Lemma curve_poly : forall s x0 x1 x2 x3 x, curve s x0 x1 x2 x3 - x =
  (- (x0 - x) + 3 * (x1 - x) - 3 * (x2 - x) + (x3 - x)) * (s * s * s) +
  (3 * (x0 - x) - 6 * (x1 - x) + 3 * (x2 - x)) * (s * s) + (-3 * (x0 - x) + 3 * (x1 - x)) * s + (x0 - x).
Proof. intros. unfold curve, mix. ring. Qed.

Lemma curve_0 : forall x0 x1 x2 x3, curve 0 x0 x1 x2 x3 = x0.
Proof. intros. unfold curve, mix. ring. Qed.
Lemma curve_1 : forall x0 x1 x2 x3, curve 1 x0 x1 x2 x3 = x3.
Proof. intros. unfold curve, mix. ring. Qed.

Lemma mix_bounds : forall s a b lo hi, 0 <= s <= 1 -> lo <= a <= hi -> lo <= b <= hi -> lo <= mix s a b <= hi.
Proof. intros s a b lo hi S A B. unfold mix. split; nra. Qed.

Lemma curve_bounds : forall s x0 x1 x2 x3 lo hi, 0 <= s <= 1 ->
  lo <= x0 <= hi -> lo <= x1 <= hi -> lo <= x2 <= hi -> lo <= x3 <= hi -> lo <= curve s x0 x1 x2 x3 <= hi.
Proof. intros. unfold curve. repeat apply mix_bounds; assumption. Qed.

Lemma curve_root : forall x0 x1 x2 x3 x, x0 <= x <= x3 -> exists r, 0 <= r <= 1 /\ curve r x0 x1 x2 x3 - x = 0.
Proof.
  intros x0 x1 x2 x3 x [A B].
  assert (continuity (fun s => curve s x0 x1 x2 x3 - x)) as C.
  { unfold curve, mix. reg. }
  destruct (IVT_cor (fun s => curve s x0 x1 x2 x3 - x) 0 1 C) as (r & Br & Z); [lra| |exists r; auto].
  rewrite curve_0, curve_1. nra.
Qed.

(** The solver on the times of a tame segment. *)
Lemma solver : forall x0 x1 x2 x3 x, tame x0 x1 x2 x3 -> x0 <= x <= x3 ->
  exists l, bezier_cubic_roots (x0 - x) (x1 - x) (x2 - x) (x3 - x) = Ok l /\ l <> [] /\
    forall r, In r l -> - EPSILON <= r <= 1 + EPSILON /\ curve r x0 x1 x2 x3 = x.
Proof.
  intros x0 x1 x2 x3 x T B. destruct (curve_root x0 x1 x2 x3 x B) as (r0 & B0 & Z0).
  assert (exists l, bezier_cubic_roots (x0 - x) (x1 - x) (x2 - x) (x3 - x) = Ok l /\
    good_roots (fun s => curve s x0 x1 x2 x3 - x) l) as (l & E & G1 & G2).
  { unfold tame in T. cbv zeta in T. fold EPSILON in T.
    replace (x3 - 3 * x2 + 3 * x1 - x0) with (- (x0 - x) + 3 * (x1 - x) - 3 * (x2 - x) + (x3 - x)) in T by ring.
    replace (3 * (x0 - 2 * x1 + x2)) with (3 * (x0 - x) - 6 * (x1 - x) + 3 * (x2 - x)) in T by ring.
    rewrite curve_poly in Z0.
    destruct T as [D|[[D A]|(D & A & S)]].
    - edestruct roots_cubic as (l & E & G); [exact D|reflexivity..|]. exists l. split; [exact E|].
      eapply good_ext; [|exact G]. intros r. cbv beta. rewrite curve_poly. reflexivity.
    - edestruct roots_quadratic as (l & E & G); [exact A|reflexivity|reflexivity|reflexivity|symmetry; exact D| |].
      + exists r0. rewrite D in Z0. rewrite <- Z0. ring.
      + exists l. split; [exact E|]. eapply good_ext; [|exact G]. intros r. cbv beta. rewrite curve_poly, D.
        rewrite Rmult_0_l, Rplus_0_l. reflexivity.
    - edestruct roots_linear as (l & E & G); [|symmetry; exact A|reflexivity|reflexivity|symmetry; exact D|].
      + replace (-3 * (x0 - x) + 3 * (x1 - x)) with (x3 - x0) by lra. rewrite Rabs_right; [exact S|].
        pose proof eps_pos. lra.
      + exists l. split; [exact E|]. eapply good_ext; [|exact G]. intros r. cbv beta. rewrite curve_poly, D, A.
        rewrite !Rmult_0_l, !Rplus_0_l. reflexivity. }
  exists l. split; [exact E|]. split.
  - intros ->. now apply (G2 r0).
  - intros r I. destruct (G1 r I) as [V Z]. split; [exact V|lra].
Qed.

(** ** Clamping the root *)

Definition clamp (r : R) : R := Rmin 1 (Rmax 0 r).

Lemma clamp_in : forall r, 0 <= clamp r <= 1.
Proof.
  intros r. unfold clamp. split.
  - apply Rmin_glb; [lra|apply Rmax_l].
  - apply Rmin_l.
Qed.
Lemma clamp_low : forall r, r <= 0 -> clamp r = 0.
Proof. intros r H. unfold clamp. rewrite Rmax_left, Rmin_right; lra. Qed.
Lemma clamp_high : forall r, 1 <= r -> clamp r = 1.
Proof. intros r H. unfold clamp. rewrite Rmax_right, Rmin_left; lra. Qed.
Lemma clamp_id : forall r, 0 <= r <= 1 -> clamp r = r.
Proof. intros r H. unfold clamp. rewrite Rmax_right, Rmin_right; lra. Qed.

Lemma start_diff : forall r x0 x1 x2 x3, curve r x0 x1 x2 x3 - x0 =
  3 * ((1 - r) * (1 - r)) * r * (x1 - x0) + 3 * (1 - r) * (r * r) * (x2 - x0) + r * r * r * (x3 - x0).
Proof. intros. unfold curve, mix. ring. Qed.

Lemma curve_flip : forall r x0 x1 x2 x3, curve r x0 x1 x2 x3 = - curve (1 - r) (- x3) (- x2) (- x1) (- x0).
Proof. intros. unfold curve, mix. ring. Qed.

Lemma before_start : forall e A B S, 0 <= e <= EPSILON -> 0 <= A <= S -> 0 <= B <= S ->
  Rabs (3 * ((1 + e) * (1 + e)) * e * A - 3 * (1 + e) * (e * e) * B + e * e * e * S) <= 4 * EPSILON * S.
Proof.
  intros e A B S He HA HB. pose proof eps_small as Es. pose proof eps_pos as Ep.
  assert (0 <= S) by lra.
  assert (0 <= (1 + e) * (1 + e) <= 101 / 100) as H1 by (split; nra).
  assert (0 <= (1 + e) * e <= / 100) as H2 by (split; nra).
  assert (0 <= e * e <= / 100) as H3 by (split; nra).
  assert (0 <= e * A <= e * S) as H4 by (split; nra).
  assert (0 <= e * B <= e * S) as H5 by (split; nra).
  assert (0 <= e * S <= EPSILON * S) as H6 by (split; nra).
  assert (0 <= (1 + e) * (1 + e) * (e * A) <= 101 / 100 * (e * S)) as H7 by (split; nra).
  assert (0 <= (1 + e) * e * (e * B) <= / 100 * (e * S)) as H8 by (split; nra).
  assert (0 <= e * e * (e * S) <= / 100 * (e * S)) as H9 by (split; nra).
  replace (3 * ((1 + e) * (1 + e)) * e * A) with (3 * ((1 + e) * (1 + e) * (e * A))) by ring.
  replace (3 * (1 + e) * (e * e) * B) with (3 * ((1 + e) * e * (e * B))) by ring.
  replace (e * e * e * S) with (e * e * (e * S)) by ring.
  apply Rabs_le. lra.
Qed.

Lemma near_start : forall r x0 x1 x2 x3, - EPSILON <= r <= 0 -> x0 <= x1 <= x3 -> x0 <= x2 <= x3 ->
  Rabs (x0 - curve r x0 x1 x2 x3) <= 4 * EPSILON * (x3 - x0).
Proof.
  intros r x0 x1 x2 x3 Hr H1 H2. rewrite Rabs_minus_sym, start_diff.
  replace (3 * ((1 - r) * (1 - r)) * r * (x1 - x0) + 3 * (1 - r) * (r * r) * (x2 - x0) + r * r * r * (x3 - x0))
    with (- (3 * ((1 + - r) * (1 + - r)) * (- r) * (x1 - x0) - 3 * (1 + - r) * (- r * - r) * (x2 - x0) + - r * - r * - r * (x3 - x0))) by ring.
  rewrite Rabs_Ropp. apply before_start; lra.
Qed.

Lemma near_end : forall r x0 x1 x2 x3, 1 <= r <= 1 + EPSILON -> x0 <= x1 <= x3 -> x0 <= x2 <= x3 ->
  Rabs (x3 - curve r x0 x1 x2 x3) <= 4 * EPSILON * (x3 - x0).
Proof.
  intros r x0 x1 x2 x3 Hr H1 H2. rewrite curve_flip.
  replace (x3 - - curve (1 - r) (- x3) (- x2) (- x1) (- x0)) with (- (- x3 - curve (1 - r) (- x3) (- x2) (- x1) (- x0))) by ring.
  rewrite Rabs_Ropp. replace (x3 - x0) with (- x0 - - x3) by ring. apply near_start; lra.
Qed.

Lemma clamped_near : forall r x0 x1 x2 x3 x, - EPSILON <= r <= 1 + EPSILON -> curve r x0 x1 x2 x3 = x ->
  x0 <= x1 <= x3 -> x0 <= x2 <= x3 ->
  Rabs (curve (clamp r) x0 x1 x2 x3 - x) <= 4 * EPSILON * (x3 - x0) /\
  (0 < clamp r < 1 -> curve (clamp r) x0 x1 x2 x3 = x).
Proof.
  intros r x0 x1 x2 x3 x V E H1 H2. destruct (Rle_dec r 0) as [L|L]; [|destruct (Rle_dec 1 r) as [U|U]].
  - rewrite clamp_low by exact L. split; [|lra]. rewrite curve_0, <- E. apply near_start; lra.
  - rewrite clamp_high by exact U. split; [|lra]. rewrite curve_1, <- E. apply near_end; lra.
  - rewrite clamp_id by lra. split; [|auto]. rewrite E. replace (x - x) with 0 by ring. rewrite Rabs_R0.
    pose proof eps_pos. nra.
Qed.

(** A root for the start of the segment is clamped to 0. *)
Lemma root_at_start : forall r x0 x1 x2 x3, r <= 1 + EPSILON -> curve r x0 x1 x2 x3 = x0 ->
  x0 < x3 -> x0 <= x1 <= x3 -> x0 <= x2 <= x3 -> r <= 0.
Proof.
  intros r x0 x1 x2 x3 V E L H1 H2. destruct (Rle_dec r 0) as [|N]; [assumption|exfalso].
  assert (0 < r) by lra. pose proof (start_diff r x0 x1 x2 x3) as D. rewrite E in D. replace (x0 - x0) with 0 in D by ring.
  set (S := x3 - x0) in *. set (A := x1 - x0) in *. set (B := x2 - x0) in *.
  assert (0 < S) by (unfold S; lra). assert (0 <= A <= S) by (unfold A, S; lra). assert (0 <= B <= S) by (unfold B, S; lra).
  assert (0 <= (1 - r) * (1 - r)) by apply Rle_0_sqr.
  assert (0 <= (1 - r) * (1 - r) * (r * A)) by (apply Rmult_le_pos; [assumption|nra]).
  assert (0 < r * r) by nra.
  pose proof eps_small. pose proof eps_pos.
  assert (0 < 3 * (1 - r) * B + r * S) as P.
  { destruct (Rle_dec r 1); [nra|]. assert (- EPSILON <= 1 - r < 0) by lra. nra. }
  assert (0 < r * r * (3 * (1 - r) * B + r * S)) by (apply Rmult_lt_0_compat; assumption).
  replace (3 * ((1 - r) * (1 - r)) * r * A + 3 * (1 - r) * (r * r) * B + r * r * r * S)
    with (3 * ((1 - r) * (1 - r) * (r * A)) + r * r * (3 * (1 - r) * B + r * S)) in D by ring. lra.
Qed.

Lemma root_at_end : forall r x0 x1 x2 x3, - EPSILON <= r -> curve r x0 x1 x2 x3 = x3 ->
  x0 < x3 -> x0 <= x1 <= x3 -> x0 <= x2 <= x3 -> 1 <= r.
Proof.
  intros r x0 x1 x2 x3 V E L H1 H2. rewrite curve_flip in E.
  assert (1 - r <= 0); [|lra]. apply (root_at_start (1 - r) (- x3) (- x2) (- x1) (- x0)); lra.
Qed.

(** ** Handles *)

Lemma first_handle_ok : forall p0 p1 p3 h, fst p0 < fst p3 -> handle p0 p1 p3 h ->
  first_handle p0 p1 p3 = Ok h /\ fst p0 <= fst h <= fst p3.
Proof.
  intros p0 p1 p3 h L (F & B & N). unfold first_handle.
  destruct (ltb_spec (fst p3) (fst p1)) as [H|H]; [|destruct (ltb_spec (fst p1) (fst p0)) as [H'|H']].
  - destruct F as [Fx Fy]; [apply Rmult_gt_0_compat; lra|]. unfold scale_handle. rewrite pdiv_ok by lra. cbn [rbind].
    split; [|lra]. destruct h as [hx hy]. cbn [fst snd] in *. subst hx. f_equal. f_equal. rewrite <- Fy. field. lra.
  - rewrite B; [cbn [fst]; split; [reflexivity|lra]|]. nra.
  - rewrite N; [split; [reflexivity|lra]| |]; nra.
Qed.

Lemma second_handle_ok : forall p0 p2 p3 h, fst p0 < fst p3 -> handle p3 p2 p0 h ->
  second_handle p0 p2 p3 = Ok h /\ fst p0 <= fst h <= fst p3.
Proof.
  intros p0 p2 p3 h L (F & B & N). unfold second_handle.
  destruct (ltb_spec (fst p2) (fst p0)) as [H|H]; [|destruct (ltb_spec (fst p3) (fst p2)) as [H'|H']].
  - destruct F as [Fx Fy]; [nra|]. unfold scale_handle. rewrite pdiv_ok by lra. cbn [rbind].
    split; [|lra]. destruct h as [hx hy]. cbn [fst snd] in *. subst hx. f_equal. f_equal. rewrite <- Fy. field. lra.
  - rewrite B; [cbn [fst]; split; [reflexivity|lra]|]. nra.
  - rewrite N; [split; [reflexivity|lra]| |]; nra.
Qed.

Lemma handle_exists : forall e p f, fst e <> fst f -> exists h, handle e p f h.
Proof.
  intros e p f N. unfold handle.
  destruct (Rlt_dec 0 ((fst p - fst f) * (fst f - fst e))) as [F|F].
  - assert (fst p - fst e <> 0) as Np. { intros E. assert (fst p = fst e) as E' by lra. rewrite E' in F. nra. }
    exists (fst f, snd e + (snd p - snd e) * (fst f - fst e) / (fst p - fst e)). cbn [fst snd]. repeat split.
    + field. exact Np.
    + intros B. exfalso. destruct (Rdichotomy _ _ N); nra.
    + intros H. exfalso. apply H. exact F.
  - destruct (Rlt_dec ((fst p - fst e) * (fst f - fst e)) 0) as [B|B].
    + exists (fst e, snd p). cbn [fst snd]. split; [|split].
      * intros H. exfalso. apply F. exact H.
      * reflexivity.
      * intros _ H. contradiction.
    + exists p. split; [|split].
      * intros H. exfalso. apply F. exact H.
      * intros H. contradiction.
      * reflexivity.
Qed.

(** ** A segment *)

(** What the interpolation returns, and the place on the curve it is taken from. *)
Lemma interpolate : forall p0 p1 p2 p3 h1 h2 x, fst p0 < fst p3 -> handle p0 p1 p3 h1 -> handle p3 p2 p0 h2 ->
  tame (fst p0) (fst h1) (fst h2) (fst p3) -> fst p0 <= x <= fst p3 ->
  exists r, - EPSILON <= r <= 1 + EPSILON /\ curve r (fst p0) (fst h1) (fst h2) (fst p3) = x /\
    bezier_interpolate p0 p1 p2 p3 x = Ok (curve (clamp r) (snd p0) (snd h1) (snd h2) (snd p3)).
Proof.
  intros p0 p1 p2 p3 h1 h2 x L H1 H2 T B. unfold bezier_interpolate. rewrite leb_false by exact L.
  destruct (first_handle_ok _ _ _ _ L H1) as [-> B1]. destruct (second_handle_ok _ _ _ _ L H2) as [-> B2].
  cbn [rbind]. destruct (solver _ _ _ _ x T B) as (l & -> & N & R). cbn [rbind].
  destruct l as [|r l]; [contradiction|]. destruct (R r (or_introl eq_refl)) as [V E].
  exists r. rewrite curve_bezier with (s := clamp r). repeat split; try apply V. exact E.
Qed.

Lemma interpolate_start : forall p0 p1 p2 p3 h1 h2, fst p0 < fst p3 -> handle p0 p1 p3 h1 -> handle p3 p2 p0 h2 ->
  tame (fst p0) (fst h1) (fst h2) (fst p3) -> bezier_interpolate p0 p1 p2 p3 (fst p0) = Ok (snd p0).
Proof.
  intros p0 p1 p2 p3 h1 h2 L H1 H2 T.
  destruct (interpolate p0 p1 p2 p3 h1 h2 (fst p0) L H1 H2 T ltac:(lra)) as (r & V & E & ->).
  destruct (first_handle_ok _ _ _ _ L H1) as [_ B1]. destruct (second_handle_ok _ _ _ _ L H2) as [_ B2].
  rewrite clamp_low; [rewrite curve_0; reflexivity|]. eapply root_at_start; try eassumption. lra.
Qed.

Lemma interpolate_end : forall p0 p1 p2 p3 h1 h2, fst p0 < fst p3 -> handle p0 p1 p3 h1 -> handle p3 p2 p0 h2 ->
  tame (fst p0) (fst h1) (fst h2) (fst p3) -> bezier_interpolate p0 p1 p2 p3 (fst p3) = Ok (snd p3).
Proof.
  intros p0 p1 p2 p3 h1 h2 L H1 H2 T.
  destruct (interpolate p0 p1 p2 p3 h1 h2 (fst p3) L H1 H2 T ltac:(lra)) as (r & V & E & ->).
  destruct (first_handle_ok _ _ _ _ L H1) as [_ B1]. destruct (second_handle_ok _ _ _ _ L H2) as [_ B2].
  rewrite clamp_high; [rewrite curve_1; reflexivity|]. eapply root_at_end; try eassumption. lra.
Qed.

(** ** Curves are monotone when their handles are inside *)

Lemma curve_slope : forall s t x0 x1 x2 x3,
  curve t x0 x1 x2 x3 - curve s x0 x1 x2 x3 =
  (t - s) * ((x1 - x0) * ((1 - s) * (1 - s) + (1 - s) * (1 - t) + (1 - t) * (1 - t)) +
             (x2 - x1) * (3 * (s + t) - 2 * (s * s + s * t + t * t)) +
             (x3 - x2) * (s * s + s * t + t * t)).
Proof. intros. unfold curve, mix. ring. Qed.

Lemma slope_pos : forall s t x0 x1 x2 x3, 0 <= s -> s < t -> t <= 1 -> x0 < x3 -> x0 <= x1 <= x3 -> x0 <= x2 <= x3 ->
  0 < (x1 - x0) * ((1 - s) * (1 - s) + (1 - s) * (1 - t) + (1 - t) * (1 - t)) +
      (x2 - x1) * (3 * (s + t) - 2 * (s * s + s * t + t * t)) +
      (x3 - x2) * (s * s + s * t + t * t).
Proof.
  intros s t x0 x1 x2 x3 Hs Hst Ht L B1 B2.
  set (K := (1 - s) * (1 - s) + (1 - s) * (1 - t) + (1 - t) * (1 - t)).
  set (M := 3 * (s + t) - 2 * (s * s + s * t + t * t)). set (N := s * s + s * t + t * t).
  assert (0 < K) as PK by (unfold K; nra).
  assert (0 < N) as PN by (unfold N; nra).
  assert (0 < M) as PM by (unfold M; nra).
  assert (0 < K + N - M) as PX.
  { replace (K + N - M) with (3 * ((s + t - 1) * (s + t - 1)) + (t - s) * (t - s)) by (unfold K, M, N; ring).
    assert (0 <= (s + t - 1) * (s + t - 1)) by apply Rle_0_sqr. nra. }
  set (S := x3 - x0) in *. set (A := x1 - x0). set (C := x3 - x2).
  replace (x2 - x1) with (S - A - C) by (unfold S, A, C; ring).
  assert (0 < S) as PS by (unfold S; lra).
  assert (0 <= A <= S) as BA by (unfold A, S; lra). assert (0 <= C <= S) as BC by (unfold C, S; lra).
  apply Rmult_lt_reg_l with S; [exact PS|]. rewrite Rmult_0_r.
  replace (S * (A * K + (S - A - C) * M + C * N)) with
    ((S - A) * (S - C) * M + A * (S - C) * K + (S - A) * C * N + A * C * (K + N - M)) by ring.
  assert (0 <= (S - A) * (S - C)) by (apply Rmult_le_pos; lra).
  assert (0 <= A * (S - C)) by (apply Rmult_le_pos; lra).
  assert (0 <= (S - A) * C) by (apply Rmult_le_pos; lra).
  assert (0 <= A * C) by (apply Rmult_le_pos; lra).
  assert ((S - A) * (S - C) + A * (S - C) + (S - A) * C + A * C = S * S) as Sum by ring.
  assert (0 < S * S) by nra.
  set (w1 := (S - A) * (S - C)) in *. set (w2 := A * (S - C)) in *. set (w3 := (S - A) * C) in *. set (w4 := A * C) in *.
  clearbody w1 w2 w3 w4. clearbody K M N. remember (K + N - M) as X.
  assert (0 <= w1 * M) by (apply Rmult_le_pos; lra).
  assert (0 <= w2 * K) by (apply Rmult_le_pos; lra).
  assert (0 <= w3 * N) by (apply Rmult_le_pos; lra).
  assert (0 <= w4 * X) by (apply Rmult_le_pos; lra).
  destruct (Rle_lt_dec w1 0); [|assert (0 < w1 * M) by (apply Rmult_lt_0_compat; lra); lra].
  destruct (Rle_lt_dec w2 0); [|assert (0 < w2 * K) by (apply Rmult_lt_0_compat; lra); lra].
  destruct (Rle_lt_dec w3 0); [|assert (0 < w3 * N) by (apply Rmult_lt_0_compat; lra); lra].
  assert (0 < w4 * X) by (apply Rmult_lt_0_compat; lra). lra.
Qed.

Lemma curve_strict : forall s t x0 x1 x2 x3, 0 <= s -> s < t -> t <= 1 -> x0 < x3 -> x0 <= x1 <= x3 -> x0 <= x2 <= x3 ->
  curve s x0 x1 x2 x3 < curve t x0 x1 x2 x3.
Proof.
  intros s t x0 x1 x2 x3 Hs Hst Ht L B1 B2.
  pose proof (slope_pos s t x0 x1 x2 x3 Hs Hst Ht L B1 B2) as P. pose proof (curve_slope s t x0 x1 x2 x3) as E.
  assert (0 < curve t x0 x1 x2 x3 - curve s x0 x1 x2 x3); [|lra]. rewrite E. apply Rmult_lt_0_compat; lra.
Qed.

Lemma curve_mono : forall s t x0 x1 x2 x3, 0 <= s -> s <= t -> t <= 1 -> x0 <= x1 <= x3 -> x0 <= x2 <= x3 ->
  curve s x0 x1 x2 x3 <= curve t x0 x1 x2 x3.
Proof.
  intros s t x0 x1 x2 x3 Hs Hst Ht B1 B2. destruct (Req_dec s t) as [->|]; [lra|].
  destruct (Rle_lt_dec x3 x0) as [L|L].
  - assert (x1 = x0) by lra. assert (x2 = x0) by lra. assert (x3 = x0) by lra. subst. unfold curve, mix. 
    replace (x0 - x0) with 0 by ring. rewrite !Rmult_0_r, !Rplus_0_r. replace (x0 - x0) with 0 by ring. lra.
  - left. apply curve_strict; lra.
Qed.

Lemma curve_opp : forall s x0 x1 x2 x3, curve s (- x0) (- x1) (- x2) (- x3) = - curve s x0 x1 x2 x3.
Proof. intros. unfold curve, mix. ring. Qed.

(** ** Finding the keyframe *)

Lemma spaced_lt : forall g l, spaced g l -> forall i j p q, (i < j)%nat -> nth_error l i = Some p ->
  nth_error l j = Some q -> k_time p < k_time q.
Proof.
  intros g l S i j p q L. revert q. induction L as [|j L IH]; intros q Hp Hq.
  - now apply (S i).
  - destruct (nth_error l j) as [m|] eqn:E.
    + specialize (IH m Hp eq_refl). destruct (S j m q E Hq). lra.
    + apply nth_error_None in E. assert (nth_error l (Datatypes.S j) <> None) as N by congruence.
      apply nth_error_Some in N. lia.
Qed.

Definition found (l : list key) (t : R) (i : Z) : Prop :=
  (0 <= i < len l)%Z /\ (forall j q, nth_error l j = Some q -> (i < Z.of_nat j)%Z -> t < k_time q) /\
  ((forall j q, nth_error l j = Some q -> (Z.of_nat j <= i)%Z -> k_time q <= t) \/
   (i = 0%Z /\ forall j q, nth_error l j = Some q -> t < k_time q)).

Lemma search_found : forall g l t, spaced g l -> l <> [] -> forall fuel lo hi,
  (hi - lo + 1 < Z.of_nat fuel)%Z -> (0 <= lo)%Z -> (lo <= hi + 1)%Z -> (hi < len l)%Z ->
  (forall j q, nth_error l j = Some q -> (Z.of_nat j < lo)%Z -> k_time q < t) ->
  (forall j q, nth_error l j = Some q -> (hi < Z.of_nat j)%Z -> t < k_time q) ->
  exists i, key_search fuel l t lo hi = Ok i /\ found l t i.
Proof.
  intros g l t S Ne. assert (0 < len l)%Z as Lp by (destruct l; [contradiction|]; unfold len; simpl length; lia).
  induction fuel as [|fuel IH]; intros lo hi F P LH H A B; [lia|]. simpl key_search.
  destruct (Z.ltb_spec hi lo) as [L|L].
  - eexists. split; [reflexivity|]. split; [lia|]. split.
    + intros j q Hq Hj. apply (B j q Hq). lia.
    + destruct (Z.eq_dec hi (-1)) as [->|N].
      * right. split; [reflexivity|]. intros j q Hq. apply (B j q Hq). lia.
      * left. intros j q Hq Hj. left. apply (A j q Hq). lia.
  - set (m := ((lo + hi) / 2)%Z).
    assert (lo <= m <= hi)%Z as Bm by (unfold m; split; [apply Z.div_le_lower_bound|apply Z.div_le_upper_bound]; lia).
    destruct (nth_error l (Z.to_nat m)) as [p|] eqn:Ep.
    2:{ exfalso. apply nth_error_None in Ep. unfold len in H. lia. }
    destruct (ltb_spec (k_time p) t) as [L1|L1]; [|destruct (ltb_spec t (k_time p)) as [L2|L2]].
    + apply IH; try lia; [|exact B]. intros j q Hq Hj. destruct (Z.eq_dec (Z.of_nat j) m) as [E|E].
      * assert (j = Z.to_nat m) by lia. subst j. rewrite Ep in Hq. injection Hq as <-. exact L1.
      * pose proof (spaced_lt g l S j (Z.to_nat m) q p ltac:(lia) Hq Ep). lra.
    + apply IH; try lia; [exact A|]. intros j q Hq Hj. destruct (Z.eq_dec (Z.of_nat j) m) as [E|E].
      * assert (j = Z.to_nat m) by lia. subst j. rewrite Ep in Hq. injection Hq as <-. exact L2.
      * pose proof (spaced_lt g l S (Z.to_nat m) j p q ltac:(lia) Ep Hq). lra.
    + assert (k_time p = t) as E by lra. eexists. split; [reflexivity|]. split; [lia|]. split.
      * intros j q Hq Hj. pose proof (spaced_lt g l S (Z.to_nat m) j p q ltac:(lia) Ep Hq). lra.
      * left. intros j q Hq Hj. destruct (Z.eq_dec (Z.of_nat j) m) as [Em|Em].
        -- assert (j = Z.to_nat m) by lia. subst j. rewrite Ep in Hq. injection Hq as <-. lra.
        -- pose proof (spaced_lt g l S j (Z.to_nat m) q p ltac:(lia) Hq Ep). lra.
Qed.

Lemma nearest_found : forall g l t, spaced g l -> l <> [] -> exists i, nearest_key l t = Ok i /\ found l t i.
Proof.
  intros g l t S Ne. unfold nearest_key. destruct l as [|k l]; [contradiction|].
  apply (search_found g); try assumption; try (unfold len; simpl length; lia).
  intros j q Hq Hj. exfalso. assert (nth_error (k :: l) j <> None) as N by congruence.
  apply nth_error_Some in N. unfold len in Hj. lia.
Qed.

Lemma nth_ne : forall (l : list key) i p, nth_error l i = Some p -> l <> [] /\ (Z.of_nat i < len l)%Z.
Proof.
  intros l i p H. assert (nth_error l i <> None) as N by congruence. apply nth_error_Some in N. unfold len.
  split; [intros ->; simpl in N|]; lia.
Qed.

Lemma nearest_at : forall g l t i p, spaced g l -> nth_error l i = Some p -> k_time p <= t ->
  (forall q, nth_error l (S i) = Some q -> t < k_time q) -> nearest_key l t = Ok (Z.of_nat i).
Proof.
  intros g l t i p S Hp L U. destruct (nth_ne _ _ _ Hp) as [Ne Li].
  destruct (nearest_found g l t S Ne) as (k & -> & Bk & A & B). f_equal.
  destruct (Z.lt_trichotomy k (Z.of_nat i)) as [C|[C|C]]; [|exact C|].
  - specialize (A i p Hp C). lra.
  - destruct (nth_error l (Datatypes.S i)) as [q|] eqn:Eq.
    + specialize (U q eq_refl). destruct B as [B|[_ B]].
      * specialize (B _ _ Eq ltac:(lia)). lra.
      * specialize (B _ _ Hp). lra.
    + apply nth_error_None in Eq. unfold len in *. lia.
Qed.

Lemma nearest_before : forall g l t p, spaced g l -> nth_error l 0 = Some p -> t < k_time p -> nearest_key l t = Ok 0%Z.
Proof.
  intros g l t p S Hp L. destruct (nth_ne _ _ _ Hp) as [Ne _].
  destruct (nearest_found g l t S Ne) as (k & -> & Bk & A & [B|[-> _]]); [|reflexivity].
  specialize (B _ _ Hp ltac:(lia)). lra.
Qed.

(** What [curve_at] does outside of the keyframes, and inside a segment. *)
Lemma curve_before : forall g kind l t p, spaced g l -> nth_error l 0 = Some p -> t < k_time p ->
  curve_at kind l t = Ok (k_value p).
Proof.
  intros g kind l t p S Hp L. unfold curve_at. rewrite (nearest_before g l t p S Hp L). cbn [rbind].
  change (Z.to_nat 0) with O. rewrite Hp, (ltb_true _ _ L). reflexivity.
Qed.

Lemma curve_after : forall g kind l t i p, spaced g l -> nth_error l i = Some p -> nth_error l (S i) = None ->
  k_time p <= t -> curve_at kind l t = Ok (k_value p).
Proof.
  intros g kind l t i p S Hp Hq L. unfold curve_at.
  rewrite (nearest_at g l t i p S Hp L) by (intros q E; congruence). cbn [rbind]. rewrite Nat2Z.id, Hp.
  apply nth_error_None in Hq. replace (len l <=? Z.of_nat i + 1)%Z with true by (symmetry; apply Z.leb_le; unfold len; lia).
  rewrite orb_true_r. reflexivity.
Qed.

Definition segment (kind : Z) (l : list key) (i : Z) (p1 p2 : key) (t : R) : result R :=
  if (kind =? 2)%Z then Ok (k_value p1)
  else if (kind =? 3)%Z then
    rbind (pdiv (t - k_time p1) (k_time p2 - k_time p1)) (fun t_mix => Ok (k_value p1 + (k_value p2 - k_value p1) * t_mix))
  else if (kind =? 5)%Z then bezier_case p1 p2 t
  else if (kind =? 6)%Z then cubic_case l i p1 p2 t
  else Err NotImplementedErr.

Lemma curve_inside : forall g kind l t i p q, spaced g l -> nth_error l i = Some p -> nth_error l (S i) = Some q ->
  k_time p <= t < k_time q -> curve_at kind l t = segment kind l (Z.of_nat i) p q t.
Proof.
  intros g kind l t i p q S Hp Hq [L U]. unfold curve_at.
  rewrite (nearest_at g l t i p S Hp L) by (intros q' E; congruence). cbn [rbind]. rewrite Nat2Z.id, Hp.
  rewrite (ltb_false _ _ L). destruct (nth_ne _ _ _ Hq) as [_ Lq].
  replace (len l <=? Z.of_nat i + 1)%Z with false by (symmetry; apply Z.leb_gt; lia).
  replace (Z.to_nat (Z.of_nat i + 1)) with (Datatypes.S i) by lia. rewrite Hq. unfold segment. simpl orb.
  destruct (kind =? 2)%Z; reflexivity.
Qed.

(** ** Tangents of keyframes *)

Lemma pp_get_app : forall c l1 l2 d, pp_get c (l1 ++ l2) d = pp_get c l2 (pp_get c l1 d).
Proof. induction l1 as [|[c' v] l1 IH]; intros; [reflexivity|]. simpl. apply IH. Qed.

Lemma pp_get_none : forall c l d, (forall w, ~ In (c, w) l) -> pp_get c l d = d.
Proof.
  induction l as [|[c' v] l IH]; intros d H; [reflexivity|]. simpl. 
  destruct (Z.eqb_spec c' c) as [->|N].
  - exfalso. apply (H v). now left.
  - apply IH. intros w I. apply (H w). now right.
Qed.

Lemma pp_is_get : forall k c v, pp_is k c v -> pp_get c (k_pp k) 0 = v.
Proof.
  intros k c v [(l1 & l2 & E & N)|[-> N]].
  - rewrite E, pp_get_app. simpl. rewrite Z.eqb_refl. apply pp_get_none. exact N.
  - apply pp_get_none. exact N.
Qed.

Lemma pp_get_is : forall k c, pp_is k c (pp_get c (k_pp k) 0).
Proof.
  intros k c. unfold pp_is. induction (k_pp k) as [|[c' v] l IH] using rev_ind.
  - right. split; [reflexivity|]. intros w [].
  - rewrite pp_get_app. simpl. destruct (Z.eqb_spec c' c) as [->|N].
    + left. exists l, []. split; [reflexivity|]. intros w [].
    + destruct IH as [(l1 & l2 & E & H)|[E H]].
      * left. exists l1, (l2 ++ [(c', v)]). split.
        -- rewrite E at 1. rewrite <- app_assoc. reflexivity.
        -- intros w I. apply in_app_iff in I as [I|[I|[]]]; [now apply (H w)|congruence].
      * right. split; [exact E|]. intros w I. apply in_app_iff in I as [I|[I|[]]]; [now apply (H w)|congruence].
Qed.

Lemma handles_exist : forall p q, k_time p < k_time q -> exists h1 h2, handles p q h1 h2.
Proof.
  intros p q L.
  destruct (handle_exists (k_time p, k_value p) (k_time p + pp_get 7 (k_pp p) 0, k_value p + pp_get 8 (k_pp p) 0)
    (k_time q, k_value q)) as [h1 H1]; [cbn [fst]; lra|].
  destruct (handle_exists (k_time q, k_value q) (k_time q + pp_get 5 (k_pp q) 0, k_value q + pp_get 6 (k_pp q) 0)
    (k_time p, k_value p)) as [h2 H2]; [cbn [fst]; lra|].
  exists h1, h2. unfold handles. do 4 eexists.
  split; [apply pp_get_is|]. split; [apply pp_get_is|]. split; [apply pp_get_is|]. split; [apply pp_get_is|].
  split; [exact H1|exact H2].
Qed.

Lemma bezier_case_eq : forall p q h1 h2 t, k_time p < k_time q -> handles p q h1 h2 -> exists o i,
  bezier_case p q t = bezier_interpolate (k_time p, k_value p) o i (k_time q, k_value q) t /\
  handle (k_time p, k_value p) o (k_time q, k_value q) h1 /\
  handle (k_time q, k_value q) i (k_time p, k_value p) h2.
Proof.
  intros p q h1 h2 t L (ox & ov & ix & iv & A & B & C & D & H1 & H2). 
  do 2 eexists. split; [|split; eassumption].
  unfold bezier_case, out_tangent, in_tangent. cbn [fst snd].
  rewrite (pp_is_get _ _ _ A), (pp_is_get _ _ _ B), (pp_is_get _ _ _ C), (pp_is_get _ _ _ D). reflexivity.
Qed.

(** ** The tangents of a spline *)

Lemma sign_same : forall a b, sign_no_zero a = sign_no_zero b -> (0 <= a /\ 0 <= b) \/ (a < 0 /\ b < 0).
Proof.
  intros a b. unfold sign_no_zero. destruct (leb_spec 0 a), (leb_spec 0 b); intros H; try discriminate; [left|right]; lra.
Qed.

Lemma div_pos : forall a b, 0 < b -> 0 <= a / b -> 0 <= a.
Proof. intros a b P H. replace a with (a / b * b) by (field; lra). apply Rmult_le_pos; lra. Qed.
Lemma div_neg : forall a b, 0 < b -> a / b < 0 -> a < 0.
Proof. intros a b P H. replace a with (a / b * b) by (field; lra). nra. Qed.

(** The height of a tangent: between nothing and the way to either neighbour. *)
Lemma tangent_height : forall a b w W, 0 < W -> 0 <= w <= W -> 0 <= a -> 0 <= b -> a + b <> 0 ->
  exists k, 0 <= k <= Rmin a b /\ Rmin a b / (a + b) * 2 * ((a + b) / W) * (4 / 10 * w) = k.
Proof.
  intros a b w W PW Bw Ha Hb N. eexists. split; [|reflexivity].
  set (m := Rmin a b). assert (0 <= m) by (unfold m; apply Rmin_glb; assumption).
  replace (m / (a + b) * 2 * ((a + b) / W) * (4 / 10 * w)) with (m * (8 / 10 * (w / W))) by (field; lra).
  assert (0 <= w / W <= 1) as B.
  { split; [apply Rmult_le_pos; [lra|left; now apply Rinv_0_lt_compat]|].
    apply Rmult_le_reg_r with W; [exact PW|]. replace (w / W * W) with w by (field; lra). lra. }
  split; [apply Rmult_le_pos; lra|]. nra.
Qed.

Lemma tangent : forall p0 p1 p2 io, fst p0 < fst p1 -> fst p1 < fst p2 -> exists ty,
  calculate_tangent p0 p1 p2 io =
    Ok (if io then (4 / 10 * (fst p1 - fst p0) * (-1), ty * (-1)) else (4 / 10 * (fst p2 - fst p1), ty)) /\
  between 0 (snd p2 - snd p1) ty /\ between 0 (snd p1 - snd p0) ty.
Proof.
  intros [px py] [x y] [nx ny] io L1 L2. cbn [fst snd] in *. unfold calculate_tangent. cbv zeta.
  rewrite !pdiv_ok by lra. cbn [rbind].
  set (slope := (ny - py) / (nx - px)). set (prev := (y - py) / (x - px)). set (next := (ny - y) / (nx - x)).
  destruct (negb (sign_no_zero prev =? sign_no_zero next)%Z || negb (sign_no_zero slope =? sign_no_zero next)%Z || eqb ny py) eqn:Fl.
  - exists 0. split; [cbn [rbind]; destruct io; reflexivity|]. split; unfold between; lra.
  - apply orb_false_iff in Fl as [Fl Ne]. apply orb_false_iff in Fl as [S1 S2].
    apply negb_false_iff in S1, S2. apply Z.eqb_eq in S1, S2.
    destruct (eqb_spec ny py) as [|N]; [discriminate|].
    assert (Rabs (ny - py) <> 0) as Nh. { intros E. destruct (Req_dec (ny - py) 0) as [E'|E']; [lra|]. now apply Rabs_no_R0 in E'. }
    rewrite pdiv_ok by exact Nh. cbn [rbind].
    set (w := if io then x - px else nx - x).
    assert ((if io then 4 / 10 * (x - px) else 4 / 10 * (nx - x)) = 4 / 10 * w) as Ew by (destruct io; reflexivity).
    rewrite Ew. assert (0 <= w <= nx - px) as Bw by (unfold w; destruct io; lra).
    exists (Rmin (Rabs (ny - y)) (Rabs (y - py)) / Rabs (ny - py) * 2 * slope * (4 / 10 * w)).
    split; [unfold w; destruct io; reflexivity|].
    apply sign_same in S1, S2.
    assert ((0 <= y - py /\ 0 <= ny - y /\ 0 < ny - py) \/ (y - py < 0 /\ ny - y < 0 /\ ny - py < 0)) as D.
    { destruct S1 as [[A B]|[A B]]; [left|right].
      - apply div_pos in A; [|lra]. apply div_pos in B; [|lra]. lra.
      - apply div_neg in A; [|lra]. apply div_neg in B; [|lra]. lra. }
    destruct D as [(A & B & C)|(A & B & C)].
    + rewrite (Rabs_pos_eq (ny - y)), (Rabs_pos_eq (y - py)), (Rabs_pos_eq (ny - py)) by lra.
      destruct (tangent_height (ny - y) (y - py) w (nx - px)) as (k & Bk & Ek); try lra.
      replace (ny - y + (y - py)) with (ny - py) in Ek by ring. unfold slope. rewrite Ek.
      pose proof (Rmin_l (ny - y) (y - py)). pose proof (Rmin_r (ny - y) (y - py)). unfold between. lra.
    + rewrite (Rabs_left (ny - y)), (Rabs_left (y - py)), (Rabs_left (ny - py)) by lra.
      destruct (tangent_height (- (ny - y)) (- (y - py)) w (nx - px)) as (k & Bk & Ek); try lra.
      replace (- (ny - y) + - (y - py)) with (- (ny - py)) in Ek by ring. unfold slope.
      replace (Rmin (- (ny - y)) (- (y - py)) / - (ny - py) * 2 * ((ny - py) / (nx - px)) * (4 / 10 * w)) with (- k).
      * pose proof (Rmin_l (- (ny - y)) (- (y - py))). pose proof (Rmin_r (- (ny - y)) (- (y - py))). unfold between. lra.
      * rewrite <- Ek. field. lra.
Qed.

(** ** A segment of a spline *)

Lemma handle_inside : forall e p f, (fst p - fst f) * (fst f - fst e) <= 0 -> 0 <= (fst p - fst e) * (fst f - fst e) -> handle e p f p.
Proof. intros e p f A B. unfold handle. cbv zeta. split; [lra|]. split; [lra|reflexivity]. Qed.

Lemma spline_times : forall s t x S, 0 < S -> s < t ->
  curve s x (x + 4 / 10 * S) (x + S - 4 / 10 * S) (x + S) < curve t x (x + 4 / 10 * S) (x + S - 4 / 10 * S) (x + S).
Proof.
  intros s t x S PS L. pose proof (curve_slope s t x (x + 4 / 10 * S) (x + S - 4 / 10 * S) (x + S)) as E.
  match type of E with _ = ?r => assert (0 < r) as P end; [|lra].
  apply Rmult_lt_0_compat; [lra|].
  match goal with |- 0 < ?a => replace a with (S * (12 / 10 - 6 / 10 * (s + t) + 3 / 10 * ((s + t) * (s + t)) + 1 / 10 * ((t - s) * (t - s)))) by field end.
  apply Rmult_lt_0_compat; [exact PS|].
  assert (0 <= (s + t - 1) * (s + t - 1)) by apply Rle_0_sqr.
  assert (0 <= (t - s) * (t - s)) by apply Rle_0_sqr. lra.
Qed.

Lemma between_shift : forall a b k, between 0 (b - a) k -> between a b (a + k).
Proof. unfold between. intros. lra. Qed.
Lemma between_shift' : forall a b k, between 0 (b - a) k -> between a b (b + k * (-1)).
Proof. unfold between. intros. lra. Qed.

Lemma spline : forall q0 p1 p2 q3, fst q0 < fst p1 -> fst p1 < fst p2 -> fst p2 < fst q3 ->
  fst p1 + 5 / 2 * EPSILON <= fst p2 -> exists y1 y2,
  between (snd p1) (snd p2) y1 /\ between (snd p1) (snd p2) y2 /\
  forall t, fst p1 <= t <= fst p2 -> exists s, 0 <= s <= 1 /\
    curve s (fst p1) (fst p1 + 4 / 10 * (fst p2 - fst p1)) (fst p2 - 4 / 10 * (fst p2 - fst p1)) (fst p2) = t /\
    cubic_interpolate q0 p1 p2 q3 t = Ok (curve s (snd p1) y1 y2 (snd p2)).
Proof.
  intros q0 p1 p2 q3 L0 L1 L2 G.
  destruct (tangent q0 p1 p2 false L0 L1) as (ty0 & E0 & B0 & _).
  destruct (tangent p1 p2 q3 true L1 L2) as (ty1 & E1 & _ & B1).
  exists (snd p1 + ty0), (snd p2 + ty1 * (-1)). split; [now apply between_shift|]. split; [now apply between_shift'|].
  intros t Bt. unfold cubic_interpolate. rewrite E0, E1. cbn [rbind fst snd]. cbv zeta.
  set (S := fst p2 - fst p1) in *. pose proof eps_pos as Pe.
  set (h1 := (fst p1 + 4 / 10 * S, snd p1 + ty0)). set (h2 := (fst p2 + 4 / 10 * S * -1, snd p2 + ty1 * -1)).
  assert (0 < S) as PS by (unfold S; lra).
  assert (handle p1 h1 p2 h1) as H1.
  { apply handle_inside; unfold h1; cbn [fst snd]; fold S; [|nra].
    replace (fst p1 + 4 / 10 * S - fst p2) with (- (6 / 10 * S)) by (unfold S; field). nra. }
  assert (handle p2 h2 p1 h2) as H2.
  { apply handle_inside; unfold h2; cbn [fst snd]; replace (fst p1 - fst p2) with (- S) by (unfold S; ring); [|nra].
    replace (fst p2 + 4 / 10 * S * -1 - fst p1) with (6 / 10 * S) by (unfold S; field). nra. }
  destruct (interpolate p1 h1 h2 p2 h1 h2 t L1 H1 H2) as (r & V & E & ->); [|exact Bt|].
  { left. unfold h1, h2. cbn [fst snd]. fold EPSILON.
    replace (fst p2 - 3 * (fst p2 + 4 / 10 * S * -1) + 3 * (fst p1 + 4 / 10 * S) - fst p1) with (4 / 10 * S) by (unfold S; field).
    rewrite Rabs_pos_eq by lra. unfold S. lra. }
  assert (fst p2 = fst p1 + S) as Ep by (unfold S; ring).
  unfold h1, h2 in *. cbn [fst snd] in *. replace (fst p2 + 4 / 10 * S * -1) with (fst p1 + S - 4 / 10 * S) in E by lra.
  rewrite Ep in E.
  assert (0 <= r).
  { destruct (Rle_lt_dec 0 r) as [|N]; [assumption|exfalso]. pose proof (spline_times r 0 (fst p1) S PS N) as C.
    rewrite curve_0 in C. lra. }
  assert (r <= 1).
  { destruct (Rle_lt_dec r 1) as [|N]; [assumption|exfalso]. pose proof (spline_times 1 r (fst p1) S PS N) as C.
    rewrite curve_1 in C. lra. }
  exists r. rewrite clamp_id by lra. split; [lra|]. split; [|reflexivity]. rewrite Ep. exact E.
Qed.

(** The neighbours that the cubic case uses lie on both sides. *)
Lemma cubic_neighbours : forall g l i p q, spaced g l -> nth_error l i = Some p -> nth_error l (S i) = Some q ->
  exists q0 q3, fst q0 < k_time p /\ k_time q < fst q3 /\
  forall t, cubic_case l (Z.of_nat i) p q t = cubic_interpolate q0 (k_time p, k_value p) (k_time q, k_value q) q3 t.
Proof.
  intros g l i p q S Hp Hq. destruct (S i p q Hp Hq) as [L _].
  assert (exists q0, fst q0 < k_time p /\
    (if (0 <=? Z.of_nat i - 1)%Z then
       match nth_error l (Z.to_nat (Z.of_nat i - 1)) with None => Err IndexErr | Some p0 => Ok (k_time p0, k_value p0) end
     else Ok (k_time p - (k_time q - k_time p) * (1 / 2), k_value p)) = Ok q0) as (q0 & B0 & E0).
  { destruct (Z.leb_spec 0 (Z.of_nat i - 1)) as [H|H].
    - destruct (nth_error l (Z.to_nat (Z.of_nat i - 1))) as [p0|] eqn:E.
      + eexists. split; [|reflexivity]. cbn [fst]. eapply (spaced_lt g l S); [|exact E|exact Hp]. lia.
      + exfalso. apply nth_error_None in E. destruct (nth_ne _ _ _ Hp) as [_ N]. unfold len in N. lia.
    - eexists. split; [|reflexivity]. cbn [fst]. lra. }
  assert (exists q3, k_time q < fst q3 /\
    (if (Z.of_nat i + 2 <? len l)%Z then
       match nth_error l (Z.to_nat (Z.of_nat i + 2)) with None => Err IndexErr | Some p3 => Ok (k_time p3, k_value p3) end
     else Ok (k_time q + (k_time q - k_time p) * (1 / 2), k_value q)) = Ok q3) as (q3 & B3 & E3).
  { destruct (Z.ltb_spec (Z.of_nat i + 2) (len l)) as [H|H].
    - destruct (nth_error l (Z.to_nat (Z.of_nat i + 2))) as [p3|] eqn:E.
      + eexists. split; [|reflexivity]. cbn [fst]. eapply (spaced_lt g l S); [|exact Hq|exact E]. lia.
      + exfalso. apply nth_error_None in E. unfold len in H. lia.
    - eexists. split; [|reflexivity]. cbn [fst]. lra. }
  exists q0, q3. split; [exact B0|]. split; [exact B3|]. intros t. unfold cubic_case. cbv zeta. rewrite E0, E3. reflexivity.
Qed.

Lemma spline_segment : forall l i p q, spaced (5 / 2 / 10 ^ 10) l -> nth_error l i = Some p -> nth_error l (S i) = Some q ->
  exists y1 y2, between (k_value p) (k_value q) y1 /\ between (k_value p) (k_value q) y2 /\
  forall t, k_time p <= t <= k_time q -> exists s, 0 <= s <= 1 /\
    curve s (k_time p) (k_time p + 4 / 10 * (k_time q - k_time p)) (k_time q - 4 / 10 * (k_time q - k_time p)) (k_time q) = t /\
    cubic_case l (Z.of_nat i) p q t = Ok (curve s (k_value p) y1 y2 (k_value q)).
Proof.
  intros l i p q S Hp Hq. destruct (cubic_neighbours _ l i p q S Hp Hq) as (q0 & q3 & B0 & B3 & E).
  destruct (S i p q Hp Hq) as [L G].
  destruct (spline q0 (k_time p, k_value p) (k_time q, k_value q) q3 B0 L B3) as (y1 & y2 & Y1 & Y2 & H).
  { cbn [fst]. unfold EPSILON. unfold Rdiv in G. lra. }
  exists y1, y2. split; [exact Y1|]. split; [exact Y2|]. intros t Bt. destruct (H t Bt) as (s & Bs & Es & Ev).
  exists s. split; [exact Bs|]. split; [exact Es|]. rewrite E. exact Ev.
Qed.

Lemma spline_unique : forall s t x S, 0 < S ->
  curve s x (x + 4 / 10 * S) (x + S - 4 / 10 * S) (x + S) <= curve t x (x + 4 / 10 * S) (x + S - 4 / 10 * S) (x + S) -> s <= t.
Proof.
  intros s t x S PS H. destruct (Rle_lt_dec s t) as [|N]; [assumption|].
  pose proof (spline_times t s x S PS N). lra.
Qed.

(** The value at the start of a segment. *)
Lemma segment_start : forall kind l i p q, In kind [2; 3; 5; 6]%Z -> spaced (if (kind =? 6)%Z then 5 / 2 / 10 ^ 10 else 0) l ->
  (kind = 5%Z -> tame_keys l) -> nth_error l i = Some p -> nth_error l (S i) = Some q ->
  segment kind l (Z.of_nat i) p q (k_time p) = Ok (k_value p).
Proof.
  intros kind l i p q K S T Hp Hq. destruct (S i p q Hp Hq) as [L _]. unfold segment.
  destruct K as [<-|[<-|[<-|[<-|[]]]]]; cbn [Z.eqb Pos.eqb].
  - reflexivity.
  - rewrite pdiv_ok by lra. cbn [rbind]. f_equal. replace (k_time p - k_time p) with 0 by ring. unfold Rdiv. ring.
  - destruct (handles_exist p q L) as (h1 & h2 & H). destruct (bezier_case_eq p q h1 h2 (k_time p) L H) as (o & n & -> & H1 & H2).
    apply (interpolate_start (k_time p, k_value p) o n (k_time q, k_value q) h1 h2); try assumption.
    eapply T; eauto.
  - cbn [Z.eqb Pos.eqb] in S. destruct (spline_segment l i p q S Hp Hq) as (y1 & y2 & _ & _ & H).
    destruct (H (k_time p) ltac:(lra)) as (s & Bs & Es & ->).
    assert (s = 0) as ->; [|rewrite curve_0; reflexivity].
    assert (s <= 0); [|lra]. apply (spline_unique s 0 (k_time p) (k_time q - k_time p)); [lra|].
    replace (k_time p + (k_time q - k_time p)) with (k_time q) by ring. rewrite curve_0. lra.
Qed.

Lemma handles_fun : forall p q h1 h2 h1' h2', k_time p < k_time q -> handles p q h1 h2 -> handles p q h1' h2' ->
  h1' = h1 /\ h2' = h2.
Proof.
  intros p q h1 h2 h1' h2' L (ox & ov & ix & iv & A & B & C & D & H1 & H2) (ox' & ov' & ix' & iv' & A' & B' & C' & D' & H1' & H2').
  apply pp_is_get in A, B, C, D, A', B', C', D'. subst.
  assert (fst (k_time p, k_value p) < fst (k_time q, k_value q)) as L' by exact L.
  destruct (first_handle_ok _ _ _ _ L' H1) as [E1 _]. destruct (first_handle_ok _ _ _ _ L' H1') as [E1' _].
  destruct (second_handle_ok _ _ _ _ L' H2) as [E2 _]. destruct (second_handle_ok _ _ _ _ L' H2') as [E2' _].
  rewrite E1 in E1'. rewrite E2 in E2'. injection E1' as ->. injection E2' as ->. split; reflexivity.
Qed.

(** ** Keyframes for the examples *)

Definition sample : list key :=
  [{| k_time := 0; k_value := 0; k_pp := [(7%Z, 1); (8%Z, 0)] |};
   {| k_time := 10; k_value := 4; k_pp := [(5%Z, -5); (6%Z, 1)] |};
   {| k_time := 12; k_value := 3; k_pp := [] |}].

Lemma sample_spaced : spaced (5 / 2 / 10 ^ 10) sample /\ spaced 0 sample.
Proof.
  split; intros [|[|[|i]]] p q Hp Hq; cbn in Hp, Hq; try discriminate;
    injection Hp as <-; injection Hq as <-; cbn [k_time]; lra.
Qed.

Lemma sample_handles : handles {| k_time := 0; k_value := 0; k_pp := [(7%Z, 1); (8%Z, 0)] |}
  {| k_time := 10; k_value := 4; k_pp := [(5%Z, -5); (6%Z, 1)] |} (1, 0) (5, 5).
Proof.
  exists 1, 0, (-5), 1. cbn [k_time k_value]. repeat split.
  - left. exists [], [(8%Z, 0)]. split; [reflexivity|]. intros w [E|[]]. discriminate.
  - left. exists [(7%Z, 1)], []. split; [reflexivity|]. intros w [].
  - left. exists [], [(6%Z, 1)]. split; [reflexivity|]. intros w [E|[]]. discriminate.
  - left. exists [(5%Z, -5)], []. split; [reflexivity|]. intros w [].
  - cbn [fst snd] in *. lra.
  - cbn [fst snd] in *. lra.
  - cbn [fst snd]. lra.
  - intros _ _. cbn [fst snd]. f_equal; ring.
  - cbn [fst snd] in *. lra.
  - cbn [fst snd] in *. lra.
  - cbn [fst snd]. lra.
  - intros _ _. cbn [fst snd]. f_equal; ring.
Qed.

Lemma sample_tame : tame 0 1 5 10.
Proof.
  left. cbv zeta. replace (10 - 3 * 5 + 3 * 1 - 0) with (-2) by ring. rewrite Rabs_left by lra. lra.
Qed.

Lemma sample_tame_keys : tame_keys sample.
Proof.
  intros [|[|[|i]]] p q h1 h2 Hp Hq H; cbn in Hp, Hq; try discriminate; injection Hp as <-; injection Hq as <-; cbn [k_time].
  - match type of H with handles ?p ?q _ _ => assert (k_time p < k_time q) as L by (cbn [k_time]; lra) end.
    destruct (handles_fun _ _ _ _ _ _ L sample_handles H) as [-> ->]. exact sample_tame.
  - destruct H as (ox & ov & ix & iv & A & B & C & D & H1 & H2). apply pp_is_get in A, C. cbn in A, C. subst ox ix.
    cbn [k_time k_value] in *.
    destruct H1 as (_ & _ & N1). destruct H2 as (_ & _ & N2). cbn [fst snd] in *.
    rewrite N1, N2 by lra. cbn [fst]. left. cbv zeta.
    replace (12 - 3 * (12 + 0) + 3 * (10 + 0) - 10) with (-4) by ring. rewrite Rabs_left by lra. lra.
Qed.
