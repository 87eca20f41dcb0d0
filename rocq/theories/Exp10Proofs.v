(** Facts about decimal floats. *)
From Coq Require Import ZArith List Bool Reals Lra Lia Psatz.
From Coq.Floats Require Import SpecFloat.
From Flocq Require Import Core Relative.
From Verif Require Import Base IoCtx RoundTrip PrimProofs Exp10 Timeline FloatProofs.
Import ListNotations.
Open Scope R_scope.

Lemma ten_real : f_wf f_ten /\ f_fin f_ten /\ f_real f_ten = 10.
Proof. apply (of_Z_exact 10). lia. Qed.

Lemma one_real : f_wf (f_of_Z 1) /\ f_fin (f_of_Z 1) /\ f_real (f_of_Z 1) = 1.
Proof. apply (of_Z_exact 1). lia. Qed.

(** Whole numbers. *)
Lemma parts_whole : forall x n, f_fin x -> f_real x = IZR n -> n <> 5994%Z -> exp10_parts x = Ok (n, 0%Z).
Proof.
  intros x n F E N. unfold exp10_parts. cbn [exp10_scale].
  rewrite (trunc_real x F), E, Ztrunc_IZR. rewrite (proj2 (eq_Z_real x n F) E).
  destruct (f_eq_Z x 5994) eqn:Q.
  - apply (eq_Z_real x 5994 F) in Q. rewrite E in Q. now apply eq_IZR in Q.
  - now rewrite (trunc_real x F), E, Ztrunc_IZR.
Qed.

Lemma value_whole : forall n, (Z.abs n <= 2 ^ 53)%Z -> exp10_value n 0 = Ok (f_of_Z n).
Proof.
  intros n H. unfold exp10_value, pow10. cbn [Z.leb Z.compare]. change (10 ^ 0)%Z with 1%Z.
  change (f_of_Z_py 1) with (Ok (f_of_Z 1)).
  transitivity (Ok (fmul (f_of_Z n) (f_of_Z 1))); [reflexivity|]. apply (f_equal Ok).
  destruct (of_Z_exact n H) as (W & F & R). destruct one_real as (W1 & F1 & R1).
  destruct (Z.eq_dec n 0) as [->|N]; [reflexivity|].
  assert (rnd (f_real (f_of_Z n) * f_real (f_of_Z 1)) = IZR n) as Q.
  { rewrite R, R1, Rmult_1_r. apply rnd_exact, exact_int, H. }
  destruct (mul_real _ _ W W1 F F1) as (A & B & C).
  - rewrite Q. apply (int_below n 54); lia.
  - apply real_inj; [assumption..|congruence|]. rewrite C, Q. intros Z. now apply eq_IZR in Z.
Qed.

(** ** The scaling loop *)

Notation u53 := (bpow radix2 (-53)).
Notation tiny := (bpow radix2 (-1074)).

Lemma rnd_error : forall y, Rabs (rnd y - y) <= u53 * Rabs y + tiny.
Proof.
  intros y.
  destruct (relative_error_N_FLT'_ex radix2 (-1074) 53 eq_refl (fun z => negb (Z.even z)) y)
    as (eps & eta & He & Ht & _ & E).
  unfold rnd. change ZnearestE with (Znearest (fun z => negb (Z.even z))). rewrite E.
  replace (y * (1 + eps) + eta - y) with (y * eps + eta) by ring.
  eapply Rle_trans; [apply Rabs_triang|]. apply Rplus_le_compat.
  - rewrite Rabs_mult, Rmult_comm. apply Rmult_le_compat_r; [apply Rabs_pos|].
    eapply Rle_trans; [exact He|]. unfold u_ro. change (-(53) + 1)%Z with (-52)%Z.
    assert (/ 2 * bpow radix2 (-52) = u53) as ->.
    { change (-52)%Z with (1 + -53)%Z. rewrite bpow_plus. change (bpow radix2 1) with 2. lra. }
    pose proof (bpow_gt_0 radix2 (-53)) as P.
    apply Rmult_le_reg_r with (1 + u53); [lra|]. unfold Rdiv. rewrite Rmult_assoc, Rinv_l by lra. nra.
  - eapply Rle_trans; [exact Ht|]. pose proof (bpow_gt_0 radix2 (-1074)). lra.
Qed.

Lemma step_error : forall v y a b, Rabs (v - y) <= a * Rabs y + b -> 0 <= a <= 1 -> tiny <= b ->
  Rabs (rnd (v * 10) - y * 10) <= (a + bpow radix2 (-52)) * Rabs (y * 10) + 16 * b.
Proof.
  intros v y a b H Ha Hb.
  pose proof (rnd_error (v * 10)) as E. pose proof (bpow_gt_0 radix2 (-53)) as P.
  assert (u53 <= / 16) as U.
  { change (/ 16) with (bpow radix2 (-4)). apply bpow_le. lia. }
  assert (bpow radix2 (-52) = 2 * u53) as ->.
  { change (-52)%Z with (1 + -53)%Z. now rewrite bpow_plus. }
  replace (rnd (v * 10) - y * 10) with ((rnd (v * 10) - v * 10) + (v - y) * 10) by ring.
  eapply Rle_trans; [apply Rabs_triang|].
  rewrite !Rabs_mult in *. rewrite (Rabs_right 10) in * by lra.
  assert (Rabs v <= Rabs (v - y) + Rabs y) as V.
  { replace v with ((v - y) + y) at 1 by ring. apply Rabs_triang. }
  pose proof (Rabs_pos y) as Y. pose proof (Rabs_pos v) as V0. pose proof (bpow_gt_0 radix2 (-1074)) as T.
  assert (u53 * Rabs v <= u53 * (a * Rabs y + b + Rabs y)) as V1 by (apply Rmult_le_compat_l; lra).
  assert (u53 * (a * Rabs y) <= u53 * Rabs y) as V2.
  { apply Rmult_le_compat_l; [lra|]. rewrite <- (Rmult_1_l (Rabs y)) at 2. apply Rmult_le_compat_r; lra. }
  assert (u53 * b <= / 16 * b) as V3 by (apply Rmult_le_compat_r; lra).
  nra.
Qed.

(** The two error terms after [k] scalings. *)
Definition rel_err (k : nat) : R := INR k * bpow radix2 (-52).
Definition abs_err (k : nat) : R := 16 ^ k * tiny.

Definition near (x v : R) (k : nat) : Prop :=
  Rabs (v - x * 10 ^ k) <= rel_err k * Rabs (x * 10 ^ k) + abs_err k.

Lemma near_0 : forall x, near x x 0.
Proof.
  intros x. unfold near. cbn [pow]. replace (x - x * 1) with 0 by ring. rewrite Rabs_R0.
  unfold rel_err, abs_err. cbn [INR pow]. pose proof (Rabs_pos (x * 1)). pose proof (bpow_gt_0 radix2 (-1074)). lra.
Qed.

Lemma rel_err_small : forall k, (k <= 6)%nat -> 0 <= rel_err k <= 6 * bpow radix2 (-52).
Proof.
  intros k H. unfold rel_err. pose proof (bpow_gt_0 radix2 (-52)). apply le_INR in H.
  change (INR 6) with (1 + 1 + 1 + 1 + 1 + 1) in H. pose proof (pos_INR k). nra.
Qed.

Lemma near_S : forall x v k, (k < 6)%nat -> near x v k -> near x (rnd (v * 10)) (S k).
Proof.
  intros x v k L H. unfold near in *.
  assert (x * 10 ^ S k = x * 10 ^ k * 10) as -> by (cbn [pow]; ring).
  destruct (rel_err_small k) as [R0 R1]; [lia|].
  assert (6 * bpow radix2 (-52) <= 1) as R2.
  { assert (bpow radix2 (-52) <= bpow radix2 (-3)) as Q by (apply bpow_le; lia).
    change (bpow radix2 (-3)) with (/ 8) in Q. lra. }
  replace (rel_err (S k)) with (rel_err k + bpow radix2 (-52)) by (unfold rel_err; rewrite S_INR; ring).
  replace (abs_err (S k)) with (16 * abs_err k) by (unfold abs_err; cbn [pow]; ring).
  apply step_error; [exact H|lra|].
  unfold abs_err. rewrite <- (Rmult_1_l tiny) at 1. apply Rmult_le_compat_r; [apply bpow_ge_0|].
  apply pow_R1_Rle. lra.
Qed.

Lemma scale_spec : forall fuel x v k, f_wf v -> f_fin v -> Rabs (f_real v) < IZR (2 ^ 31) ->
  near x (f_real v) k -> (k <= 6)%nat -> (7 <= k + fuel)%nat ->
  exists s k', exp10_scale fuel v (- Z.of_nat k) = Ok (s, (- Z.of_nat k')%Z) /\ (k <= k' <= 6)%nat /\ f_wf s /\ f_fin s /\ Rabs (f_real s) < IZR (2 ^ 31) /\ near x (f_real s) k' /\
    (f_real s = IZR (Ztrunc (f_real s)) \/ k' = 6%nat \/ IZR (2 ^ 31 - 1) <= Rabs (rnd (f_real s * 10))).
Proof.
  induction fuel as [|fuel IH]; intros x v k W F B N K Hf; [lia|].
  cbn [exp10_scale]. rewrite (trunc_real v F).
  destruct (f_eq_Z v (Ztrunc (f_real v))) eqn:E1.
  { exists v, k. apply (eq_Z_real v _ F) in E1. repeat (split; [assumption||lia||reflexivity|]). now left. }
  destruct ten_real as (W10 & F10 & R10).
  assert (Rabs (rnd (f_real v * 10)) < fmax) as Ov.
  { apply Rle_lt_trans with (IZR (2 ^ 31 * 10)).
    - assert (exact (IZR (2 ^ 31 * 10))) as X by (apply exact_int; lia).
      apply Rabs_lt_inv in B. rewrite mult_IZR in *. apply Rabs_le. split.
      + rewrite <- (rnd_exact _ X) at 1. replace (- rnd (IZR (2 ^ 31) * 10)) with (rnd (- (IZR (2 ^ 31) * 10))).
        * apply rnd_le. lra.
        * unfold rnd. apply round_NE_opp.
      + rewrite <- (rnd_exact _ X). apply rnd_le. lra.
    - rewrite <- (Rabs_right (IZR (2 ^ 31 * 10))) by (apply Rle_ge; apply IZR_le; lia).
      apply (int_below _ 40); lia. }
  destruct (mul_real v f_ten W W10 F F10) as (Ws & Fs & Rs); [rewrite R10; exact Ov|]. rewrite R10 in Rs.
  destruct (f_abs_ge_Z (fmul v f_ten) 0x7FFFFFFF) eqn:E2.
  { exists v, k. apply (abs_ge_Z_real _ _ Fs) in E2. rewrite Rs in E2.
    repeat (split; [assumption||lia||reflexivity|]). right. right. exact E2. }
  destruct (- Z.of_nat k <=? -6)%Z eqn:E3.
  { exists v, k. apply Z.leb_le in E3. repeat (split; [assumption||lia||reflexivity|]). right. left. lia. }
  apply Z.leb_gt in E3.
  replace (- Z.of_nat k - 1)%Z with (- Z.of_nat (S k))%Z by lia.
  assert (near x (f_real (fmul v f_ten)) (S k)) as N' by (rewrite Rs; apply near_S; [lia|exact N]).
  assert (Rabs (f_real (fmul v f_ten)) < IZR (2 ^ 31)) as B'.
  { apply Rnot_le_lt. intros G. assert (f_abs_ge_Z (fmul v f_ten) 0x7FFFFFFF = true) as T; [|congruence].
    apply abs_ge_Z_real; [exact Fs|]. eapply Rle_trans; [|exact G]. apply IZR_le. lia. }
  destruct (IH x _ (S k) Ws Fs B' N') as (s & k' & A1 & A2 & A3); [lia|lia|].
  exists s, k'. split; [exact A1|]. split; [lia|exact A3].
Qed.

(** What the error terms come to for values below 2^31. *)
Lemma near_bound : forall x s k, (k <= 6)%nat -> Rabs s < IZR (2 ^ 31) -> near x s k ->
  Rabs (s - x * 10 ^ k) < bpow radix2 (-18).
Proof.
  intros x s k K B N. unfold near in N. set (y := x * 10 ^ k) in *.
  destruct (rel_err_small k K) as [R0 R1].
  assert (abs_err k <= bpow radix2 (-1000)) as Ab.
  { unfold abs_err. apply Rle_trans with (16 ^ 6 * tiny).
    - apply Rmult_le_compat_r; [apply bpow_ge_0|]. apply Rle_pow; [lra|exact K].
    - assert (16 ^ 6 = bpow radix2 24) as -> by (change (bpow radix2 24) with (IZR 16777216); cbn [pow]; lra). rewrite <- bpow_plus. apply bpow_le. lia. }
  assert (Rabs y <= Rabs s + Rabs (s - y)) as Y.
  { replace y with (s + - (s - y)) at 1 by ring. eapply Rle_trans; [apply Rabs_triang|]. rewrite Rabs_Ropp; apply Rle_refl. }
  assert (bpow radix2 (-1000) <= bpow radix2 (-40)) as T by (apply bpow_le; lia).
  assert (bpow radix2 (-52) = / IZR (2 ^ 52)) as E52 by (apply bpow_neg_Z; lia).
  assert (bpow radix2 (-40) = / IZR (2 ^ 40)) as E40 by (apply bpow_neg_Z; lia).
  assert (bpow radix2 (-18) = / IZR (2 ^ 18)) as E18 by (apply bpow_neg_Z; lia).
  change (2 ^ 31)%Z with 2147483648%Z in B. change (2 ^ 52)%Z with 4503599627370496%Z in E52.
  change (2 ^ 40)%Z with 1099511627776%Z in E40. change (2 ^ 18)%Z with 262144%Z in E18.
  rewrite E18. rewrite E52 in R1. rewrite E40 in T.
  pose proof (Rabs_pos y) as Py.
  assert (rel_err k * Rabs y <= 6 * / 4503599627370496 * Rabs y) as M by (apply Rmult_le_compat_r; lra).
  lra.
Qed.

(** ** What is stored *)

(** Mantissa and exponent of a value below 2^31. Either the scaled value was 5994, or the
    mantissa is the scaled value cut towards zero. *)
Lemma parts_spec : forall x, f_wf x -> f_fin x -> Rabs (f_real x) < IZR (2 ^ 31) ->
  exists s k, exp10_scale 7 x 0 = Ok (s, (- Z.of_nat k)%Z) /\ (k <= 6)%nat /\ f_wf s /\ f_fin s /\
    Rabs (f_real s) < IZR (2 ^ 31) /\ near (f_real x) (f_real s) k /\
    (f_real s = IZR (Ztrunc (f_real s)) \/ k = 6%nat \/ IZR (2 ^ 31 - 1) <= Rabs (rnd (f_real s * 10))) /\
    exp10_parts x = (if f_eq_Z s 5994 then Ok (59940, -3)%Z else Ok (Ztrunc (f_real s), (- Z.of_nat k)%Z)).
Proof.
  intros x W F B.
  destruct (scale_spec 7 (f_real x) x 0 W F B (near_0 _)) as (s & k & E & K & Ws & Fs & Bs & N & L); [lia|lia|].
  exists s, k. change (- Z.of_nat 0)%Z with 0%Z in E. repeat (split; [assumption||lia|]).
  unfold exp10_parts. rewrite E, (trunc_real s Fs). now destruct (f_eq_Z s 5994).
Qed.

Lemma trunc_near : forall r, Rabs (r - IZR (Ztrunc r)) < 1 /\ Rabs (IZR (Ztrunc r)) <= Rabs r.
Proof.
  intros r. split.
  - destruct (Rlt_or_le r 0) as [L|L].
    + rewrite Ztrunc_ceil by lra. pose proof (Zceil_ub r). pose proof (Zceil_lb r). apply Rabs_lt. lra.
    + rewrite Ztrunc_floor by lra. pose proof (Zfloor_ub r). pose proof (Zfloor_lb r). apply Rabs_lt. lra.
  - rewrite <- abs_IZR. destruct (Rlt_or_le r 0) as [L|L].
    + rewrite Ztrunc_ceil by lra. pose proof (Zceil_ub r) as U. rewrite (Rabs_left r) by lra.
      assert (Zceil r <= 0)%Z by (apply Zceil_glb; simpl; lra). rewrite Z.abs_neq by lia. rewrite opp_IZR. lra.
    + rewrite Ztrunc_floor by lra. pose proof (Zfloor_lb r) as U. rewrite (Rabs_right r) by lra.
      assert (0 <= Zfloor r)%Z by (apply Zfloor_lub; simpl; lra). rewrite Z.abs_eq by lia. exact U.
Qed.

(** ** Writing and reading the pair *)

(** The bytes hold mantissa [m] and exponent [e], and nothing else. *)
Definition holds (bo : border) (b : bytes) (m e : Z) : Prop :=
  forall rest, exists mid, rs32 bo (b ++ rest) = Ok (m, mid) /\ rs16 bo mid = Ok (e, rest).

Lemma pair_written : forall bo x m e, exp10_parts x = Ok (m, e) ->
  (- 2 ^ 31 <= m < 2 ^ 31)%Z -> (- 2 ^ 15 <= e < 2 ^ 15)%Z ->
  exists b, wexp10 bo x = Ok b /\ holds bo b m e.
Proof.
  intros bo x m e E Hm He. unfold wexp10. rewrite E.
  destruct (ik_in_range KS32 bo m) as (b1 & W1 & _); [cbn; lia|].
  destruct (ik_in_range KS16 bo e) as (b2 & W2 & _); [cbn; lia|].
  cbn [ik_write] in W1, W2. rewrite W1, W2. exists (b1 ++ b2). split; [reflexivity|].
  intros rest. exists (b2 ++ rest). rewrite <- app_assoc. split.
  - now apply (rt_s32 anyr).
  - now apply (rt_s16 anyr).
Qed.

Lemma pair_refused : forall bo x m e, exp10_parts x = Ok (m, e) ->
  ~ (- 2 ^ 31 <= m < 2 ^ 31)%Z -> wexp10 bo x = Err StructError.
Proof.
  intros bo x m e E Hm. unfold wexp10. rewrite E.
  assert (ws32 bo m = Err StructError) as ->; [|reflexivity].
  apply (ik_out_of_range KS32). cbn. lia.
Qed.

Lemma holds_read : forall bo b m e y rest, holds bo b m e -> exp10_value m e = Ok y ->
  rexp10 bo (b ++ rest) = Ok (y, rest).
Proof.
  intros bo b m e y rest H E. destruct (H rest) as (mid & A & B).
  unfold rexp10, bind. rewrite A, B, E. reflexivity.
Qed.

(** ** Values that are not finite; the loop's end *)

Lemma scale_ends : forall fuel v k, (k <= 6)%nat -> (7 <= k + fuel)%nat ->
  match exp10_scale fuel v (- Z.of_nat k) with
  | Ok (s, e) => (-6 <= e <= 0)%Z
  | Err x => x <> OutOfFuel
  end.
Proof.
  induction fuel as [|fuel IH]; intros v k K H; [lia|]. cbn [exp10_scale].
  destruct (f_trunc v) as [n|x] eqn:T.
  - destruct (f_eq_Z v n); [lia|]. destruct (f_abs_ge_Z _ _); [lia|].
    destruct (Z.leb_spec (- Z.of_nat k) (-6)); [lia|].
    replace (- Z.of_nat k - 1)%Z with (- Z.of_nat (S k))%Z by lia. apply IH; lia.
  - destruct v; cbn in T; congruence.
Qed.

(** The scaling of a finite value of any size. *)
Lemma scale_finite : forall fuel v k, f_wf v -> f_fin v -> (k <= 6)%nat -> (7 <= k + fuel)%nat ->
  exists s e, exp10_scale fuel v (- Z.of_nat k) = Ok (s, e) /\ f_wf s /\ f_fin s /\ (-6 <= e <= 0)%Z.
Proof.
  induction fuel as [|fuel IH]; intros v k W F K H; [lia|]. cbn [exp10_scale].
  rewrite (trunc_real v F).
  destruct (f_eq_Z v _); [exists v, (- Z.of_nat k)%Z; repeat split; auto; lia|].
  destruct (f_abs_ge_Z (fmul v f_ten) 0x7FFFFFFF) eqn:G; [exists v, (- Z.of_nat k)%Z; repeat split; auto; lia|].
  destruct (Z.leb_spec (- Z.of_nat k) (-6)); [exists v, (- Z.of_nat k)%Z; repeat split; auto; lia|].
  replace (- Z.of_nat k - 1)%Z with (- Z.of_nat (S k))%Z by lia.
  destruct ten_real as (W10 & F10 & R10).
  destruct (Rlt_or_le (Rabs (rnd (f_real v * f_real f_ten))) fmax) as [L|L].
  - destruct (mul_real v f_ten W W10 F F10 L) as (A & B & _). apply IH; auto; lia.
  - destruct (mul_overflow v f_ten W W10 L) as [sg Q]. rewrite Q in G. discriminate G.
Qed.

Lemma parts_finite : forall x, f_wf x -> f_fin x ->
  exists m e, exp10_parts x = Ok (m, e) /\ (-6 <= e <= 0)%Z.
Proof.
  intros x W F. destruct (scale_finite 7 x 0 W F) as (s & e & E & Ws & Fs & He); [lia|lia|].
  change (- Z.of_nat 0)%Z with 0%Z in E. unfold exp10_parts. rewrite E, (trunc_real s Fs).
  destruct (f_eq_Z s 5994); eexists _, _; (split; [reflexivity|lia]).
Qed.

(** ** Reading *)

(** The powers of ten down to -6. *)
Lemma pow10_real : forall k, (k <= 6)%nat -> exists p, pow10 (- Z.of_nat k) = Ok p /\ f_wf p /\ f_fin p /\
  Rabs (f_real p - / 10 ^ k) <= u53 * / 10 ^ k.
Proof.
  intros k K.
  assert (bpow radix2 (-53) = / IZR 9007199254740992) as E53 by (apply (bpow_neg_Z (-53)); lia).
  do 7 (destruct k as [|k];
    [eexists; split; [vm_compute; reflexivity|]; split; [reflexivity|]; split; [reflexivity|];
     rewrite real_finite, E53; rewrite ?bpow_neg_Z by lia; cbn [Z.opp Z.pow Z.pow_pos Pos.iter Z.mul Pos.mul pow];
     try rewrite Rmult_1_l; apply Rabs_le; split; lra|]).
  lia.
Qed.

(** What reading mantissa [m] with exponent [-k] gives. *)
Lemma value_near : forall m k, (- 2 ^ 31 <= m < 2 ^ 31)%Z -> (k <= 6)%nat ->
  exists y, exp10_value m (- Z.of_nat k) = Ok y /\ f_wf y /\ f_fin y /\
    Rabs (f_real y - IZR m / 10 ^ k) <= bpow radix2 (-51) * Rabs (IZR m / 10 ^ k).
Proof.
  intros m k Hm K. destruct (pow10_real k K) as (p & E & W & F & R).
  destruct (of_Z_exact m) as (Wm & Fm & Rm); [lia|].
  set (t := / 10 ^ k) in *.
  assert (0 < t <= 1) as Ht.
  { unfold t. assert (1 <= 10 ^ k) as P by (apply pow_R1_Rle; lra). split; [apply Rinv_0_lt_compat; lra|].
    rewrite <- Rinv_1. apply Rinv_le; lra. }
  assert (u53 <= / 16) as U.
  { change (/ 16) with (bpow radix2 (-4)). apply bpow_le. lia. }
  pose proof (bpow_gt_0 radix2 (-53)) as P.
  assert (Rabs (f_real p) <= 2) as Bp.
  { apply Rabs_le_inv in R. apply Rabs_le. nra. }
  assert (Rabs (rnd (f_real (f_of_Z m) * f_real p)) < fmax) as Ov.
  { rewrite Rm. apply Rle_lt_trans with (IZR (2 ^ 32)).
    - assert (exact (IZR (2 ^ 32))) as X by (apply exact_int; lia).
      assert (Rabs (IZR m * f_real p) <= IZR (2 ^ 32)) as Y.
      { rewrite Rabs_mult, <- abs_IZR. assert (IZR (Z.abs m) <= IZR (2 ^ 31)) by (apply IZR_le; lia).
        change (IZR (2 ^ 32)) with (IZR (2 ^ 31 * 2)). rewrite mult_IZR.
        apply Rmult_le_compat; [apply IZR_le; lia|apply Rabs_pos|assumption|assumption]. }
      apply Rabs_le_inv in Y. apply Rabs_le. split.
      + rewrite <- (rnd_exact _ X) at 1. replace (- rnd (IZR (2 ^ 32))) with (rnd (- IZR (2 ^ 32))).
        * apply rnd_le. lra.
        * unfold rnd. apply round_NE_opp.
      + rewrite <- (rnd_exact _ X). apply rnd_le. lra.
    - rewrite <- (Rabs_right (IZR (2 ^ 32))) by (apply Rle_ge; apply IZR_le; lia).
      apply (int_below _ 40); lia. }
  destruct (mul_real _ _ Wm W Fm F Ov) as (A & B & C). rewrite Rm in C.
  exists (fmul (f_of_Z m) p). split; [unfold exp10_value; now rewrite E|].
  split; [exact A|]. split; [exact B|]. rewrite C. unfold Rdiv. fold t.
  destruct (Z.eq_dec m 0) as [->|M0].
  { rewrite !Rmult_0_l, rnd_0, Rminus_0_r, Rabs_R0. lra. }
  pose proof (rnd_error (IZR m * f_real p)) as Er.
  replace (rnd (IZR m * f_real p) - IZR m * t) with
    ((rnd (IZR m * f_real p) - IZR m * f_real p) + IZR m * (f_real p - t)) by ring.
  eapply Rle_trans; [apply Rabs_triang|]. rewrite !Rabs_mult in *.
  rewrite (Rabs_right t) in * by lra.
  set (M := Rabs (IZR m)) in *.
  assert (1 <= M) as M1 by (unfold M; rewrite <- abs_IZR; apply IZR_le; lia).
  assert (Rabs (f_real p) <= t + u53 * t) as Bp2.
  { apply Rabs_le_inv in R. apply Rabs_le. nra. }
  assert (/ 10 ^ 6 <= t) as T6.
  { unfold t. apply Rinv_le; [apply pow_lt; lra|]. apply Rle_pow; [lra|lia]. }
  assert (tiny <= u53 * / 10 ^ 6) as Ty.
  { apply Rle_trans with (bpow radix2 (-53 + -20)); [apply bpow_le; lia|]. rewrite bpow_plus.
    apply Rmult_le_compat_l; [apply bpow_ge_0|]. change (bpow radix2 (-20)) with (/ 1048576).
    cbn [pow]. lra. }
  assert (bpow radix2 (-51) = 4 * u53) as ->.
  { change (-51)%Z with (2 + -53)%Z. now rewrite bpow_plus. }
  assert (M * Rabs (f_real p - t) <= M * (u53 * t)) as Z1 by (apply Rmult_le_compat_l; lra).
  assert (u53 * (M * Rabs (f_real p)) <= u53 * (M * (t + u53 * t))) as Z2.
  { apply Rmult_le_compat_l; [lra|]. apply Rmult_le_compat_l; lra. }
  assert (u53 * / 10 ^ 6 <= u53 * (M * t)) as Z3.
  { apply Rmult_le_compat_l; [lra|]. nra. }
  assert (0 <= M * t) as Mt by nra.
  assert (u53 * (M * (t + u53 * t)) = u53 * (M * t) + u53 * (u53 * (M * t))) as Z4 by ring.
  assert (u53 * (u53 * (M * t)) <= u53 * (M * t)) as Z5.
  { apply Rmult_le_compat_l; [lra|]. nra. }
  replace (4 * u53 * (M * t)) with (u53 * (M * t) + u53 * (M * t) + u53 * (M * t) + u53 * (M * t)) by ring.
  replace (M * (u53 * t)) with (u53 * (M * t)) in Z1 by ring. lra.
Qed.
