(** Half frames as doubles and as rational numbers. *)
From Coq Require Import ZArith List Bool Reals Lra Lia QArith Qcanon.
From Coq.Floats Require Import SpecFloat.
From Flocq Require Import Core BinarySingleNaN.
From Verif Require Import Base Exp10 Components Timeline FloatProofs CurveProofs IntegrateSpec IntegrateProofs.
Import ListNotations.
Open Scope R_scope.

Definition one_half : float64 := S754_finite false 4503599627370496 (-53).
Lemma one_half_div : fdiv (f_of_Z 1) (f_of_Z 2) = one_half.
Proof. vm_compute. reflexivity. Qed.
Lemma one_half_real : f_wf one_half /\ f_fin one_half /\ f_real one_half = / 2.
Proof.
  split; [reflexivity|]. split; [reflexivity|]. unfold one_half. rewrite real_finite, bpow_neg_Z by lia.
  change (2 ^ (- -53))%Z with 9007199254740992%Z. lra.
Qed.

Lemma exact_half : forall k, (Z.abs k <= 2 ^ 53)%Z -> exact (IZR k / 2).
Proof.
  intros k H. replace (IZR k / 2) with (IZR k * bpow radix2 (-1)).
  - apply exact_float; [exact H|lia].
  - rewrite bpow_neg_Z by lia. change (2 ^ (- -1))%Z with 2%Z. lra.
Qed.

Lemma half_below : forall k, (Z.abs k <= 2 ^ 53)%Z -> Rabs (IZR k / 2) < fmax.
Proof.
  intros k H. apply Rle_lt_trans with (Rabs (IZR k)).
  - unfold Rdiv. rewrite Rabs_mult. rewrite (Rabs_right (/ 2)) by lra. pose proof (Rabs_pos (IZR k)). lra.
  - apply (int_below k 54); lia.
Qed.

Lemma add_half : forall x k, f_wf x -> f_fin x -> f_real x = IZR k / 2 -> (Z.abs (k + 1) <= 2 ^ 53)%Z ->
  f_wf (fadd x one_half) /\ f_fin (fadd x one_half) /\ f_real (fadd x one_half) = IZR (k + 1) / 2.
Proof.
  intros x k W F E H. destruct one_half_real as (Wh & Fh & Rh).
  assert (f_real x + f_real one_half = IZR (k + 1) / 2) as S by (rewrite E, Rh, plus_IZR; lra).
  pose proof (rnd_exact _ (exact_half _ H)) as X.
  destruct (add_real x one_half W Wh F Fh) as (A & B & C); rewrite S, X in *.
  - now apply half_below.
  - auto.
Qed.

Lemma half_parts : forall k, k = (2 * (k / 2) + (if Z.even k then 0 else 1))%Z.
Proof.
  intros k. pose proof (Z.div_mod k 2 ltac:(lia)) as D. rewrite Zmod_even in D.
  destruct (Z.even k); lia.
Qed.

Lemma half_real : forall k, (Z.abs k <= 2 ^ 53)%Z ->
  f_wf (half_frame k) /\ f_fin (half_frame k) /\ f_real (half_frame k) = IZR k / 2.
Proof.
  intros k H. unfold half_frame. pose proof (half_parts k) as P.
  assert (Z.abs (k / 2) <= 2 ^ 53)%Z as H2 by (destruct (Z.even k); lia).
  destruct (of_Z_exact (k / 2) H2) as (A & B & C).
  destruct (Z.even k).
  - split; [exact A|]. split; [exact B|]. rewrite C. rewrite P at 2. rewrite Z.add_0_r, mult_IZR. lra.
  - rewrite one_half_div. rewrite P at 4. apply add_half; [exact A|exact B| |lia].
    rewrite C, mult_IZR. lra.
Qed.

Lemma half_even : forall i, half_frame (2 * i) = f_of_Z i.
Proof.
  intros i. unfold half_frame. rewrite Z.even_mul. cbn [Z.even orb]. f_equal.
  rewrite Z.mul_comm. apply Z.div_mul. lia.
Qed.

Lemma half_next : forall k, (- 2 ^ 53 <= k < 2 ^ 53)%Z -> fadd (half_frame k) one_half = half_frame (k + 1).
Proof.
  intros k H. destruct (Z.eq_dec k (-1)) as [->|N]; [vm_compute; reflexivity|].
  destruct (half_real k) as (A & B & C); [lia|]. destruct (half_real (k + 1)) as (A' & B' & C'); [lia|].
  destruct (add_half _ k A B C) as (A2 & B2 & C2); [lia|].
  apply real_inj; auto; [congruence|]. rewrite C2. apply Rmult_integral_contrapositive_currified; [|lra].
  apply not_0_IZR. lia.
Qed.

Lemma eqb_real : forall x y, f_wf x -> f_wf y -> f_fin x -> f_fin y -> (SFeqb x y = true <-> f_real x = f_real y).
Proof.
  intros x y Wx Wy Fx Fy. apply to_b in Wx as [bx <-]. apply to_b in Wy as [b_y <-].
  rewrite !real_b. unfold f_fin in *. rewrite !fin_b in *. unfold SFeqb.
  pose proof (Bcompare_correct 53 1024 bx b_y Fx Fy) as C. unfold Bcompare in C. rewrite C.
  destruct (Rcompare_spec (B2R bx) (B2R b_y)); split; intros; try discriminate; try lra; reflexivity.
Qed.

Lemma halves_ieee : forall lo hi, (- 2 ^ 52 <= lo)%Z -> (hi <= 2 ^ 52)%Z -> halves ieee half_frame lo hi.
Proof.
  intros lo hi L H. split; [|split; [|split]].
  - intros i Hi. symmetry. apply half_even.
  - intros k Hk. apply half_next. lia.
  - intros j k Hj Hk. destruct (half_real j) as (A & B & C); [lia|]. destruct (half_real k) as (A' & B' & C'); [lia|].
    cbn [n_ltb ieee]. pose proof (ltb_real _ _ A A' B B') as E. rewrite C, C' in E.
    destruct (Z.ltb_spec j k) as [G|G].
    + apply E. apply IZR_lt in G. lra.
    + destruct (fltb (half_frame j) (half_frame k)); [|reflexivity]. pose proof (proj1 E eq_refl).
      apply IZR_le in G. lra.
  - intros j k Hj Hk. destruct (half_real j) as (A & B & C); [lia|]. destruct (half_real k) as (A' & B' & C'); [lia|].
    cbn [n_eqb ieee]. pose proof (eqb_real _ _ A A' B B') as E. rewrite C, C' in E.
    destruct (Z.eqb_spec j k) as [G|G].
    + apply E. now rewrite G.
    + destruct (SFeqb (half_frame j) (half_frame k)); [|reflexivity]. pose proof (proj1 E eq_refl) as Q.
      exfalso. apply G. apply eq_IZR. lra.
Qed.

(** ** Rational numbers *)

Open Scope Qc_scope.

Lemma qz_plus : forall a b, qz (a + b) = qz a + qz b.
Proof.
  intros a b. unfold qz, Qcplus. apply Q2Qc_eq_iff. unfold Q2Qc, this. rewrite !Qred_correct. rewrite inject_Z_plus. reflexivity.
Qed.
Lemma qz_opp : forall a, qz (- a) = - qz a.
Proof. intros a. unfold qz, Qcopp. apply Q2Qc_eq_iff. unfold Q2Qc, this. rewrite !Qred_correct. rewrite inject_Z_opp. reflexivity. Qed.
Lemma qz_mult : forall a b, qz (a * b) = qz a * qz b.
Proof.
  intros a b. unfold qz, Qcmult. apply Q2Qc_eq_iff. unfold Q2Qc, this. rewrite !Qred_correct. rewrite inject_Z_mult. reflexivity.
Qed.
Lemma qz_inj : forall a b, qz a = qz b -> a = b.
Proof.
  intros a b H. apply Q2Qc_eq_iff in H. unfold Qeq, inject_Z in H. cbn [Qnum Qden] in H. lia.
Qed.
Lemma qz_lt : forall a b, qz a < qz b <-> (a < b)%Z.
Proof.
  intros a b. unfold Qclt, qz, Q2Qc, this. rewrite !Qred_correct. rewrite Zlt_Qlt. reflexivity.
Qed.
Lemma qz_2 : qz 2 <> 0.
Proof. intros H. apply (qz_inj 2 0) in H. discriminate. Qed.
Lemma qz_5 : qz 5 <> 0.
Proof. intros H. apply (qz_inj 5 0) in H. discriminate. Qed.

Lemma half_lt : forall j k, q_half_frame j < q_half_frame k <-> (j < k)%Z.
Proof.
  intros j k. rewrite <- qz_lt. unfold q_half_frame, Qcdiv.
  assert (0 < / qz 2) as P by reflexivity.
  split; intros H.
  - apply Qcnot_le_lt. intros L. apply (Qcmult_le_compat_r _ _ (/ qz 2)) in L; [|now apply Qclt_le_weak].
    now apply Qcle_not_lt in L.
  - now apply Qcmult_lt_compat_r.
Qed.

Lemma halves_rational : forall lo hi, halves rational q_half_frame lo hi.
Proof.
  intros lo hi. split; [|split; [|split]].
  - intros i _. change (qz i = qz (2 * i) / qz 2). rewrite qz_mult. field. exact qz_2.
  - intros k _. change (qz k / qz 2 + qz 1 / qz 2 = qz (k + 1) / qz 2). rewrite qz_plus. field. exact qz_2.
  - intros j k _ _. cbn [n_ltb rational num]. pose proof (half_lt j k) as H.
    destruct (Qclt_le_dec (q_half_frame j) (q_half_frame k)) as [L|L]; destruct (Z.ltb_spec j k) as [G|G]; auto.
    + exfalso. apply H in L. lia.
    + exfalso. apply H in G. now apply Qcle_not_lt in L.
  - intros j k _ _. cbn [n_eqb rational num].
    destruct (Qc_eq_dec (q_half_frame j) (q_half_frame k)) as [E|E]; destruct (Z.eqb_spec j k) as [G|G]; auto.
    + exfalso. apply G. apply qz_inj. unfold q_half_frame in E.
      assert (qz j / qz 2 * qz 2 = qz k / qz 2 * qz 2) as E' by now rewrite E.
      unfold Qcdiv in E'. rewrite <- !Qcmult_assoc, !(Qcmult_comm (/ qz 2)), !Qcmult_inv_r, !Qcmult_1_r in E' by exact qz_2. exact E'.
    + exfalso. apply E. now rewrite G.
Qed.

(** ** The curve's integral *)

Close Scope Qc_scope.
Open Scope Z_scope.

Lemma base_frame_spec : forall l b, has_base l b -> base_frame l = Ok b.
Proof.
  intros l b [(pre & q & post & -> & N & C & V)|[N ->]].
  - induction pre as [|x pre IH]; cbn [app base_frame].
    + now rewrite C.
    + rewrite (proj2 (Z.eqb_neq _ _) (N x (or_introl eq_refl))). apply IH. intros y I. apply N. now right.
  - induction l as [|x l IH]; cbn [base_frame]; [reflexivity|].
    rewrite (proj2 (Z.eqb_neq _ _) (N x (or_introl eq_refl))). apply IH. intros y I. apply N. now right.
Qed.

Lemma integrate_unfold : forall smooth kind l center base start stop, zero_point l center base ->
  integrate smooth kind l start (Some stop) = integrate_range ieee (value_at smooth kind l) center base start stop.
Proof.
  intros smooth kind l center base start stop (p & rest & t & -> & T & C & B). unfold integrate.
  now rewrite T, C, (base_frame_spec _ _ B).
Qed.

Lemma trapezoid_float : forall f a b s, mc_trapezoidal_integrate ieee f a b = Ok s -> float_trapezoids f a b s.
Proof.
  intros f a b s H. unfold mc_trapezoidal_integrate in H. cbn [ieee n_div n_sub n_of_Z num] in H.
  unfold float_trapezoids. rewrite one_half_div. set (h := fdiv (fsub b a) (f_of_Z 5)) in *.
  cbv zeta. destruct (f (fsub a h)) as [v0|] eqn:E0; [|discriminate].
  do 5 (cbn [trapezoid_loop ieee n_add n_mul n_of_Z n_half num Z.add Pos.add Pos.succ] in H;
        match type of H with match ?x with _ => _ end = _ => destruct x eqn:?; [|discriminate] end).
  cbn [trapezoid_loop] in H. injection H as <-. exists v0. do 5 eexists. repeat (split; [reflexivity|]). reflexivity.
Qed.

Lemma step_float : forall f u t v, step ieee f u t = Ok v ->
  exists s, float_trapezoids f (fsub t one_half) t s /\ v = fadd u s.
Proof.
  intros f u t v H. unfold step in H. cbn [ieee n_sub n_half num n_add] in H. fold one_half in H.
  destruct (mc_trapezoidal_integrate ieee f (fsub t one_half) t) as [s|] eqn:E; [|discriminate].
  injection H as <-. exists s. split; [now apply trapezoid_float|reflexivity].
Qed.

Lemma step_total : forall A f u t, (forall x, exists v, f x = Ok v) -> exists v, step A f u t = Ok v.
Proof.
  intros A f u t H. unfold step, mc_trapezoidal_integrate.
  destruct (H (n_sub A (n_sub A t (n_half A)) (n_div A (n_sub A t (n_sub A t (n_half A))) (n_of_Z A 5)))) as [v0 ->].
  assert (forall n i a h pv acc, exists v, trapezoid_loop A f n i a h pv acc = Ok v) as L.
  { induction n as [|n IH]; intros; cbn [trapezoid_loop]; [eauto|].
    destruct (H (n_add A a (n_mul A (n_of_Z A i) h))) as [v ->]. apply IH. }
  destruct (L 5%nat 0 (n_sub A t (n_half A)) (n_div A (n_sub A t (n_sub A t (n_half A))) (n_of_Z A 5)) v0 (n_of_Z A 0)) as [v ->].
  eauto.
Qed.

Lemma range_total : forall A f hf lo hi center base start stop, halves A hf lo hi -> (forall x, exists v, f x = Ok v) ->
  lo <= start -> lo <= center -> center <= stop <= hi -> start <= stop -> Z.min start center < stop ->
  exists r, integrate_range A f center base start stop = Ok r.
Proof.
  intros A f hf lo hi center base start stop H F L1 L2 L3 L4 L5. rewrite (range_acc A f hf lo hi) by auto.
  assert (forall n k pos, exists l, accumulate A f hf k n pos = Ok l) as T.
  { induction n as [|n IH]; intros k pos; cbn [accumulate]; [eauto|].
    destruct (step_total A f pos (hf k) F) as [p ->]. destruct (IH (k + 1) p) as [l ->]. eauto. }
  destruct (T (Z.to_nat (2 * (stop - Z.min start center) + 1)) (2 * Z.min start center) (n_of_Z A 0)) as [l E].
  rewrite E. pose proof (acc_length _ _ _ _ _ _ _ E) as Ln.
  destruct (nth_error l (Z.to_nat (2 * center - 2 * Z.min start center))) as [[t x]|] eqn:N; [eauto|].
  apply nth_error_None in N. lia.
Qed.

(** Without rounding. *)
Lemma trapezoid_rational : forall (f : Qc -> Qc) (a b : Qc),
  mc_trapezoidal_integrate rational (fun t => Ok (f t)) a b = Ok (five_trapezoids f a b).
Proof.
  intros f a b. unfold mc_trapezoidal_integrate.
  cbn [trapezoid_loop rational n_add n_mul n_of_Z n_half num n_sub n_div Z.add Pos.add Pos.succ Pos.add_carry].
  f_equal. unfold five_trapezoids. change (num rational) with Qc. set (h := ((b - a) / qz 5)%Qc).
  replace (a + qz 0 * h)%Qc with a by (change (qz 0) with 0%Qc; ring).
  replace (a + qz 1 * h)%Qc with (a + h)%Qc by (change (qz 1) with 1%Qc; ring).
  change (qz 0) with 0%Qc. change (qz 1) with 1%Qc.
  generalize (f (a - h)%Qc) (f a) (f (a + h)%Qc) (f (a + qz 2 * h)%Qc) (f (a + qz 3 * h)%Qc) (f (a + qz 4 * h)%Qc).
  intros v0 v1 v2 v3 v4 v5. change (qz 2) with (1 + 1)%Qc. field. discriminate.
Qed.

Lemma step_rational : forall (f : Qc -> Qc) (u t v : Qc), step rational (fun t => Ok (f t)) u t = Ok v ->
  v = (u + five_trapezoids f (t - qz 1 / qz 2) t)%Qc.
Proof.
  intros f u t v H. unfold step in H. rewrite trapezoid_rational in H. now injection H as <-.
Qed.

Lemma trapezoids_constant : forall c a b, five_trapezoids (fun _ => c) a b = ((b - a) * c)%Qc.
Proof.
  intros c a b. unfold five_trapezoids. cbv zeta. change (qz 2) with (1 + 1)%Qc.
  change (qz 5) with (1 + 1 + 1 + 1 + 1)%Qc. field. split; discriminate.
Qed.

Lemma trapezoids_ramp : forall m c a b, let h := ((b - a) / qz 5)%Qc in
  five_trapezoids (fun t => m * t + c)%Qc a b =
    (m / qz 2 * ((b - h) * (b - h) - (a - h) * (a - h)) + c * (b - a))%Qc.
Proof.
  intros m c a b h. unfold h, five_trapezoids. cbv zeta. change (qz 2) with (1 + 1)%Qc.
  change (qz 3) with (1 + 1 + 1)%Qc. change (qz 4) with (1 + 1 + 1 + 1)%Qc.
  change (qz 5) with (1 + 1 + 1 + 1 + 1)%Qc. field. split; discriminate.
Qed.

Lemma half_diff : forall k, (q_half_frame k - qz 1 / qz 2)%Qc = q_half_frame (k - 1).
Proof.
  intros k. unfold q_half_frame, Z.sub. rewrite qz_plus, qz_opp. field. exact qz_2.
Qed.

Lemma rational_values : forall (f : Qc -> Qc) center base start stop r,
  start <= stop -> center <= stop -> Z.min start center < stop ->
  integrate_range rational (fun t => Ok (f t)) center base start stop = Ok r ->
  exists w : Z -> Qc,
    w (2 * center) = base /\
    (forall k, 2 * Z.min start center < k <= 2 * stop ->
       w k = (w (k - 1)%Z + five_trapezoids f (q_half_frame (k - 1)) (q_half_frame k))%Qc) /\
    length r = Z.to_nat (2 * (stop - start) + 1) /\
    (forall k, 2 * start <= k <= 2 * stop -> nth_error r (Z.to_nat (k - 2 * start)) = Some (q_half_frame k, w k)).
Proof.
  intros f center base start stop r L1 L2 L3 H.
  destruct (range_ok rational (fun t => Ok (f t)) q_half_frame (Z.min start center) stop (halves_rational _ _) center base start stop r)
    as (Ln & x & X0 & S & X); [lia..|exact H|].
  exists (fun k => x k - (x (2 * center)%Z - base))%Qc. split; [change (num rational) with Qc in *; ring|].
  split; [|split; [exact Ln|exact X]].
  intros k Hk. pose proof (S k ltac:(lia)) as Sk. apply step_rational in Sk. rewrite half_diff in Sk.
  rewrite Sk. change (num rational) with Qc in *. ring.
Qed.

(** Two functions with the same differences that agree at one place agree. *)
Lemma agree : forall (u w : Z -> Qc) lo hi c, lo <= c <= hi -> u c = w c ->
  (forall k, lo < k <= hi -> (u k - u (k - 1)%Z)%Qc = (w k - w (k - 1)%Z)%Qc) ->
  forall k, lo <= k <= hi -> u k = w k.
Proof.
  intros u w lo hi c Hc E D.
  assert (forall k, lo < k <= hi -> u k = w k <-> u (k - 1) = w (k - 1)) as St.
  { intros k Hk. specialize (D k Hk). split; intros Q.
    - rewrite Q in D. replace (u (k - 1)) with (w k - (w k - u (k - 1)%Z))%Qc by ring. rewrite D. ring.
    - rewrite Q in D. replace (u k) with (u k - w (k - 1)%Z + w (k - 1)%Z)%Qc by ring. rewrite D. ring. }
  assert (forall n, c + Z.of_nat n <= hi -> u (c + Z.of_nat n) = w (c + Z.of_nat n)) as Up.
  { induction n as [|n IH]; intros Hn; [now rewrite Z.add_0_r|]. apply (proj2 (St (c + Z.of_nat (S n)) ltac:(lia))).
    replace (c + Z.of_nat (S n) - 1) with (c + Z.of_nat n) by lia. apply IH. lia. }
  assert (forall n, lo <= c - Z.of_nat n -> u (c - Z.of_nat n) = w (c - Z.of_nat n)) as Dn.
  { induction n as [|n IH]; intros Hn; [now rewrite Z.sub_0_r|].
    replace (c - Z.of_nat (S n)) with (c - Z.of_nat n - 1) by lia. apply (proj1 (St (c - Z.of_nat n) ltac:(lia))). apply IH. lia. }
  intros k Hk. destruct (Z.le_gt_cases c k).
  - replace k with (c + Z.of_nat (Z.to_nat (k - c))) by lia. apply Up. lia.
  - replace k with (c - Z.of_nat (Z.to_nat (c - k))) by lia. apply Dn. lia.
Qed.

Lemma nth_error_ext' : forall B (a b : list B), (forall j, nth_error a j = nth_error b j) -> a = b.
Proof.
  induction a as [|x a IH]; intros [|y b] H; try reflexivity.
  - specialize (H 0%nat). discriminate.
  - specialize (H 0%nat). discriminate.
  - pose proof (H 0%nat) as E. injection E as ->. f_equal. apply IH. intros j. apply (H (S j)).
Qed.

Lemma ramp : forall m c k,
  let e := (qz 1 / qz 10)%Qc in let a := (q_half_frame (k - 1) - e)%Qc in let b := (q_half_frame k - e)%Qc in
  let F := (fun t => m / qz 2 * (t * t) + c * t)%Qc in
  five_trapezoids (fun t => m * t + c)%Qc (q_half_frame (k - 1)) (q_half_frame k) = (F b - F a)%Qc.
Proof.
  intros m c k e a b F. rewrite trapezoids_ramp. unfold F, a, b, e. cbv zeta. rewrite <- half_diff.
  generalize (q_half_frame k). intros t.
  change (qz 1) with 1%Qc. change (qz 2) with (1 + 1)%Qc. change (qz 5) with (1 + 1 + 1 + 1 + 1)%Qc.
  change (qz 10) with (1 + 1 + 1 + 1 + 1 + 1 + 1 + 1 + 1 + 1)%Qc. field. repeat split; discriminate.
Qed.

(** ** Operations on doubles give doubles *)

Lemma add_wf : forall x y, f_wf x -> f_wf y -> f_wf (fadd x y).
Proof. intros x y X Y. apply to_b in X as [a <-]. apply to_b in Y as [b <-]. rewrite add_b. apply wf_b. Qed.
Lemma sub_wf : forall x y, f_wf x -> f_wf y -> f_wf (fsub x y).
Proof. intros x y X Y. apply to_b in X as [a <-]. apply to_b in Y as [b <-]. rewrite sub_b. apply wf_b. Qed.
Lemma mul_wf : forall x y, f_wf x -> f_wf y -> f_wf (fmul x y).
Proof. intros x y X Y. apply to_b in X as [a <-]. apply to_b in Y as [b <-]. rewrite mul_b. apply wf_b. Qed.
Lemma div_wf : forall x y, f_wf x -> f_wf y -> f_wf (fdiv x y).
Proof. intros x y X Y. apply to_b in X as [a <-]. apply to_b in Y as [b <-]. rewrite div_b. apply wf_b. Qed.
Lemma of_Z_wf : forall n, f_wf (f_of_Z n).
Proof. intros n. rewrite of_Z_b. apply wf_b. Qed.

Lemma sub_same : forall x, fsub x x = S754_zero false \/ fsub x x = S754_nan.
Proof.
  intros x. unfold fsub, SFsub. destruct x as [s|s| |s m e]; [destruct s; auto|destruct s; auto|auto|].
  left. rewrite Z.sub_diag. reflexivity.
Qed.

Lemma sub_zero : forall x, f_wf x -> fsub x (f_of_Z 0) = x.
Proof.
  intros x W. change (f_of_Z 0) with (S754_zero false). destruct x as [s|s| |s m e]; try (destruct s); reflexivity.
Qed.

Lemma sub_self : forall x, f_wf x -> fsub x (fsub x (f_of_Z 0)) = S754_zero false \/ fsub x (fsub x (f_of_Z 0)) = S754_nan.
Proof. intros x W. rewrite sub_zero by exact W. apply sub_same. Qed.

Lemma trapezoids_wf : forall f a b s, (forall t v, f_wf t -> f t = Ok v -> f_wf v) -> f_wf a -> f_wf b ->
  float_trapezoids f a b s -> f_wf s.
Proof.
  intros f a b s F A B (v0 & v1 & v2 & v3 & v4 & v5 & E0 & E1 & E2 & E3 & E4 & E5 & ->).
  assert (f_wf (fdiv (fsub b a) (f_of_Z 5))) as H by (apply div_wf; [now apply sub_wf|apply of_Z_wf]).
  set (h := fdiv (fsub b a) (f_of_Z 5)) in *. clearbody h.
  assert (forall n, f_wf (fadd a (fmul (f_of_Z n) h))) as T.
  { intros n. apply add_wf; [exact A|]. apply mul_wf; [apply of_Z_wf|exact H]. }
  assert (f_wf v0 /\ f_wf v1 /\ f_wf v2 /\ f_wf v3 /\ f_wf v4 /\ f_wf v5) as (W0 & W1 & W2 & W3 & W4 & W5).
  { repeat split; first [eapply F; [|eassumption]; apply T|eapply F; [|eassumption]; now apply sub_wf]. }
  assert (forall v u, f_wf v -> f_wf u -> f_wf (fmul (fmul (fadd v u) h) (fdiv (f_of_Z 1) (f_of_Z 2)))) as Ar.
  { intros v u V U. apply mul_wf; [apply mul_wf; [now apply add_wf|exact H]|]. rewrite one_half_div. apply one_half_real. }
  repeat (apply add_wf; [|apply Ar; assumption]). apply of_Z_wf.
Qed.

(** Values of stepped and linear curves are doubles if the keyframes' are. *)
Lemma value_wf : forall smooth kind l t v, kind = 2 \/ kind = 3 ->
  (forall p u, In p l -> cp_float (pcp_value p) = Ok u -> f_wf u) -> f_wf t ->
  value_at smooth kind l t = Ok v -> f_wf v.
Proof.
  intros smooth kind l t v K C W H. unfold value_at in H.
  assert (forall p x, pcp_time p = Ok x -> f_wf x) as T.
  { intros p x Q. unfold pcp_time in Q. destruct (pcp_offset_den p =? 0); [discriminate|].
    destruct (pcp_timescale p =? 0); [discriminate|]. injection Q as <-.
    apply mul_wf; [apply div_wf|]; apply of_Z_wf. }
  destruct (nearest_index l t) as [i|]; [|discriminate].
  destruct (nth_error l (Z.to_nat i)) as [p|] eqn:N; [|discriminate]. apply nth_error_In in N.
  destruct (pcp_time p) as [t1|] eqn:T1; [|discriminate].
  destruct (fltb t t1 || (len l <=? i + 1)); [eapply C; eauto|].
  destruct K as [->| ->]; cbn [Z.eqb Pos.eqb] in H; [eapply C; eauto|].
  destruct (nth_error l (Z.to_nat (i + 1))) as [q|] eqn:Nq; [|discriminate]. apply nth_error_In in Nq.
  destruct (pcp_time q) as [t2|] eqn:T2; [|discriminate].
  destruct (f_is_zero (fsub t2 t1)) eqn:Z0; [discriminate|].
  destruct (cp_float (pcp_value p)) as [v1|] eqn:V1; [|discriminate].
  destruct (cp_float (pcp_value q)) as [v2|] eqn:V2; [|discriminate].
  unfold linear_value in H. rewrite Z0 in H. injection H as <-.
  pose proof (T _ _ T1). pose proof (T _ _ T2). pose proof (C _ _ N V1). pose proof (C _ _ Nq V2).
  unfold lerp. apply add_wf; [assumption|]. apply mul_wf; [now apply sub_wf|]. apply div_wf; now apply sub_wf.
Qed.
