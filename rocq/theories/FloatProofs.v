(** Facts about the floats of the model, from Flocq: the operations of [SpecFloat] round the exact
    result to the nearest double. *)
From Coq Require Import ZArith List Bool Reals Lra Lia Psatz.
From Coq.Floats Require Import SpecFloat.
From Flocq Require Import Core BinarySingleNaN Plus_error.
From Verif Require Import Base IoCtx Exp10 Timeline.
Open Scope Z_scope.

Local Instance Hprec : FLX.Prec_gt_0 53 := eq_refl.
Local Instance Hmax : Prec_lt_emax 53 1024 := eq_refl.

(** A double: 53 bits, exponents in range, no second form of the same number. *)
Definition f_wf (x : float64) : Prop := SpecFloat.valid_binary 53 1024 x = true.
(** A number, neither infinite nor NaN. *)
Definition f_fin (x : float64) : Prop := is_finite_SF x = true.
(** Its value; 0 for infinities and NaN. *)
Definition f_real (x : float64) : R := SF2R radix2 x.
(** The nearest double to a real number, ties to even, without overflow. *)
Definition rnd (x : R) : R := round radix2 (FLT_exp (-1074) 53) ZnearestE x.

Notation b64 := (binary_float 53 1024).

Lemma to_b : forall x, f_wf x -> exists b : b64, B2SF b = x.
Proof. intros x W. exists (SF2B x W). apply B2SF_SF2B. Qed.

Lemma wf_b : forall b : b64, f_wf (B2SF b).
Proof. intros b. apply valid_binary_B2SF. Qed.

Lemma real_b : forall b : b64, f_real (B2SF b) = B2R b.
Proof. intros b. apply SF2R_B2SF. Qed.

Lemma fin_b : forall b : b64, is_finite_SF (B2SF b) = is_finite b.
Proof. intros b. apply is_finite_SF_B2SF. Qed.

Lemma round_nearest_even_equiv s m l : round_nearest_even m l = choice_mode mode_NE s m l.
Proof.
  case l; [reflexivity|intro c]. case c; [|reflexivity..].
  now simpl; unfold Round.cond_incr; case Z.even.
Qed.

Lemma binary_round_aux_equiv sx mx ex lx :
  SpecFloat.binary_round_aux 53 1024 sx mx ex lx = binary_round_aux 53 1024 mode_NE sx mx ex lx.
Proof.
  unfold SpecFloat.binary_round_aux, binary_round_aux.
  set (mrse' := shr_fexp _ _ _). case mrse'; intros mrs' e'; simpl.
  now rewrite (round_nearest_even_equiv sx).
Qed.

Lemma binary_round_equiv s m e :
  SpecFloat.binary_round 53 1024 s m e = binary_round 53 1024 mode_NE s m e.
Proof.
  unfold SpecFloat.binary_round, binary_round, shl_align_fexp.
  set (mez := shl_align _ _ _); case mez as [mz ez]. apply binary_round_aux_equiv.
Qed.

Lemma binary_normalize_equiv m e szero :
  SpecFloat.binary_normalize 53 1024 m e szero
  = B2SF (binary_normalize 53 1024 Hprec Hmax mode_NE m e szero).
Proof.
  case m as [|p|p]; [now simpl|..]; simpl; rewrite B2SF_SF2B; apply binary_round_equiv.
Qed.

Lemma mul_b (x y : b64) : fmul (B2SF x) (B2SF y) = B2SF (Bmult mode_NE x y).
Proof.
  unfold fmul, prec64, emax64.
  case x as [sx|sx| |sx mx ex Bx]; case y as [sy|sy| |sy my ey By]; [now trivial..|].
  simpl. rewrite B2SF_SF2B. apply binary_round_aux_equiv.
Qed.

Lemma add_b (x y : b64) : fadd (B2SF x) (B2SF y) = B2SF (Bplus mode_NE x y).
Proof.
  unfold fadd, prec64, emax64.
  case x as [sx|sx| |sx mx ex Bx]; case y as [sy|sy| |sy my ey By];
    [now (trivial || simpl; case Bool.eqb)..|].
  apply binary_normalize_equiv.
Qed.

Lemma sub_b (x y : b64) : fsub (B2SF x) (B2SF y) = B2SF (Bminus mode_NE x y).
Proof.
  unfold fsub, prec64, emax64.
  case x as [sx|sx| |sx mx ex Bx]; case y as [sy|sy| |sy my ey By];
    [now (trivial || simpl; case Bool.eqb)..|].
  simpl. unfold Zminus. rewrite <- cond_Zopp_negb. apply binary_normalize_equiv.
Qed.

Lemma div_b (x y : b64) : fdiv (B2SF x) (B2SF y) = B2SF (Bdiv mode_NE x y).
Proof.
  unfold fdiv, prec64, emax64.
  case x as [sx|sx| |sx mx ex Bx]; case y as [sy|sy| |sy my ey By];
    [now (trivial || simpl; case Bool.eqb)..|].
  simpl. rewrite B2SF_SF2B. set (melz := SFdiv_core_binary _ _ _ _ _ _).
  case melz as [[mz ez] lz]. apply binary_round_aux_equiv.
Qed.

Lemma of_Z_b n : f_of_Z n = B2SF (binary_normalize 53 1024 Hprec Hmax mode_NE n 0 false).
Proof. apply binary_normalize_equiv. Qed.

(** ** The operations and the values *)

Open Scope R_scope.

Definition fmax : R := bpow radix2 1024.

Lemma finite_below : forall x, f_wf x -> f_fin x -> Rabs (f_real x) < fmax.
Proof.
  intros x W F. apply to_b in W as [b <-]. rewrite real_b. apply abs_B2R_lt_emax.
Qed.

Lemma mul_real : forall x y, f_wf x -> f_wf y -> f_fin x -> f_fin y ->
  Rabs (rnd (f_real x * f_real y)) < fmax ->
  f_wf (fmul x y) /\ f_fin (fmul x y) /\ f_real (fmul x y) = rnd (f_real x * f_real y).
Proof.
  intros x y Wx Wy Fx Fy H. apply to_b in Wx as [bx <-]. apply to_b in Wy as [b_y <-].
  rewrite mul_b. rewrite !real_b in *. unfold f_fin in *. rewrite !fin_b in *.
  pose proof (Bmult_correct 53 1024 Hprec Hmax mode_NE bx b_y) as C.
  rewrite Rlt_bool_true in C by exact H. destruct C as (C1 & C2 & _).
  split; [apply wf_b|]. rewrite C2, Fx, Fy. split; [reflexivity|]. exact C1.
Qed.

Lemma mul_overflow : forall x y, f_wf x -> f_wf y -> fmax <= Rabs (rnd (f_real x * f_real y)) ->
  exists s, fmul x y = S754_infinity s.
Proof.
  intros x y Wx Wy H. apply to_b in Wx as [bx <-]. apply to_b in Wy as [b_y <-].
  rewrite mul_b. rewrite !real_b in *.
  pose proof (Bmult_correct 53 1024 Hprec Hmax mode_NE bx b_y) as C.
  rewrite Rlt_bool_false in C by exact H. rewrite C. eexists. reflexivity.
Qed.

Lemma add_real : forall x y, f_wf x -> f_wf y -> f_fin x -> f_fin y ->
  Rabs (rnd (f_real x + f_real y)) < fmax ->
  f_wf (fadd x y) /\ f_fin (fadd x y) /\ f_real (fadd x y) = rnd (f_real x + f_real y).
Proof.
  intros x y Wx Wy Fx Fy H. apply to_b in Wx as [bx <-]. apply to_b in Wy as [b_y <-].
  rewrite add_b. rewrite !real_b in *. unfold f_fin in *. rewrite !fin_b in *.
  pose proof (Bplus_correct 53 1024 Hprec Hmax mode_NE bx b_y Fx Fy) as C.
  rewrite Rlt_bool_true in C by exact H. destruct C as (C1 & C2 & _).
  split; [apply wf_b|]. split; [exact C2|]. exact C1.
Qed.

Lemma sub_real : forall x y, f_wf x -> f_wf y -> f_fin x -> f_fin y ->
  Rabs (rnd (f_real x - f_real y)) < fmax ->
  f_wf (fsub x y) /\ f_fin (fsub x y) /\ f_real (fsub x y) = rnd (f_real x - f_real y).
Proof.
  intros x y Wx Wy Fx Fy H. apply to_b in Wx as [bx <-]. apply to_b in Wy as [b_y <-].
  rewrite sub_b. rewrite !real_b in *. unfold f_fin in *. rewrite !fin_b in *.
  pose proof (Bminus_correct 53 1024 Hprec Hmax mode_NE bx b_y Fx Fy) as C.
  rewrite Rlt_bool_true in C by exact H. destruct C as (C1 & C2 & _).
  split; [apply wf_b|]. split; [exact C2|]. exact C1.
Qed.

Lemma div_real : forall x y, f_wf x -> f_wf y -> f_fin x -> f_real y <> 0 ->
  Rabs (rnd (f_real x / f_real y)) < fmax ->
  f_wf (fdiv x y) /\ f_fin (fdiv x y) /\ f_real (fdiv x y) = rnd (f_real x / f_real y).
Proof.
  intros x y Wx Wy Fx Ny H. apply to_b in Wx as [bx <-]. apply to_b in Wy as [b_y <-].
  rewrite div_b. rewrite !real_b in *. unfold f_fin in *. rewrite !fin_b in *.
  pose proof (Bdiv_correct 53 1024 Hprec Hmax mode_NE bx b_y Ny) as C.
  rewrite Rlt_bool_true in C by exact H. destruct C as (C1 & C2 & _).
  split; [apply wf_b|]. rewrite C2. split; [exact Fx|]. exact C1.
Qed.

Lemma of_Z_real : forall n, Rabs (rnd (IZR n)) < fmax ->
  f_wf (f_of_Z n) /\ f_fin (f_of_Z n) /\ f_real (f_of_Z n) = rnd (IZR n).
Proof.
  intros n H. rewrite of_Z_b. rewrite real_b. unfold f_fin. rewrite fin_b.
  pose proof (binary_normalize_correct 53 1024 Hprec Hmax mode_NE n 0 false) as C.
  cbv zeta in C. replace (F2R (Float radix2 n 0)) with (IZR n) in C
    by (unfold F2R; cbn [Fnum Fexp bpow]; lra).
  rewrite Rlt_bool_true in C by exact H. destruct C as (C1 & C2 & _).
  split; [apply wf_b|]. split; [exact C2|]. exact C1.
Qed.

(** The numbers that are doubles. *)
Definition exact (x : R) : Prop := generic_format radix2 (FLT_exp (-1074) 53) x.

Local Instance Hfexp : Valid_exp (FLT_exp (-1074) 53).
Proof. apply FLT_exp_valid. reflexivity. Qed.

Lemma rnd_exact : forall x, exact x -> rnd x = x.
Proof. intros x H. apply round_generic; [apply valid_rnd_N|exact H]. Qed.

Lemma exact_real : forall x, f_wf x -> exact (f_real x).
Proof.
  intros x W. apply to_b in W as [b <-]. rewrite real_b. apply (generic_format_B2R 53 1024).
Qed.

Lemma exact_rnd : forall x, exact (rnd x).
Proof. intros x. apply generic_format_round; [apply Hfexp|apply valid_rnd_N]. Qed.

Lemma rnd_le : forall x y, x <= y -> rnd x <= rnd y.
Proof. intros x y H. apply round_le; [apply Hfexp|apply valid_rnd_N|exact H]. Qed.

Lemma rnd_0 : rnd 0 = 0.
Proof. apply round_0, valid_rnd_N. Qed.

(** Whole multiples of a power of two with 53 bits or less. *)
Lemma exact_float : forall m e, (Z.abs m <= 2 ^ 53)%Z -> (-1074 <= e)%Z -> exact (IZR m * bpow radix2 e).
Proof.
  intros m e Hm He. destruct (Z.eq_dec (Z.abs m) (2 ^ 53)) as [E|N].
  - assert (exists m', m = m' * 2 /\ Z.abs m' < 2 ^ 53)%Z as (m' & -> & Hm').
    { exists (m / 2)%Z. assert (m = 2 ^ 53 \/ m = - 2 ^ 53)%Z as [-> | ->] by lia; split; reflexivity. }
    apply generic_format_FLT. exists (Float radix2 m' (e + 1)); [|exact Hm'|cbn [Fexp]; lia].
    unfold F2R. cbn [Fnum Fexp]. rewrite mult_IZR, bpow_plus. cbn [bpow radix2]. 
    change (IZR (Z.pow_pos radix2 1)) with 2. lra.
  - assert (Z.abs m < 2 ^ 53)%Z as Hm' by lia.
    apply generic_format_FLT. exists (Float radix2 m e); [reflexivity|exact Hm'|exact He].
Qed.

Lemma exact_int : forall n, (Z.abs n <= 2 ^ 53)%Z -> exact (IZR n).
Proof.
  intros n H. replace (IZR n) with (IZR n * bpow radix2 0) by (change (bpow radix2 0) with 1; lra).
  apply exact_float; [exact H|lia].
Qed.

Lemma fmax_IZR : fmax = IZR (2 ^ 1024).
Proof. unfold fmax. rewrite <- IZR_Zpower by lia. reflexivity. Qed.

Lemma int_below : forall n k, (Z.abs n < 2 ^ k)%Z -> (0 <= k <= 1024)%Z -> Rabs (IZR n) < fmax.
Proof.
  intros n k H Hk. rewrite <- abs_IZR. apply Rlt_le_trans with (IZR (2 ^ k)); [now apply IZR_lt|].
  rewrite fmax_IZR. apply IZR_le. apply Z.pow_le_mono_r; lia.
Qed.

Lemma of_Z_exact : forall n, (Z.abs n <= 2 ^ 53)%Z ->
  f_wf (f_of_Z n) /\ f_fin (f_of_Z n) /\ f_real (f_of_Z n) = IZR n.
Proof.
  intros n H. pose proof (rnd_exact _ (exact_int n H)) as E.
  destruct (of_Z_real n) as (A & B & C).
  - rewrite E. apply (int_below n 54); [lia|lia].
  - rewrite C, E. auto.
Qed.

(** Equal numbers other than zero are the same double. *)
Lemma real_inj : forall x y, f_wf x -> f_wf y -> f_fin x -> f_fin y -> f_real x = f_real y ->
  f_real x <> 0 -> x = y.
Proof.
  intros x y Wx Wy Fx Fy E N. apply to_b in Wx as [bx <-]. apply to_b in Wy as [b_y <-].
  rewrite !real_b in *. unfold f_fin in *. rewrite !fin_b in *. f_equal.
  apply B2R_inj; [..|exact E]; apply is_finite_strict_B2R; congruence.
Qed.

(** ** Truncation and comparisons with whole numbers *)

Lemma real_finite s m e :
  f_real (S754_finite s m e) = (if s then -1 else 1) * (IZR (Zpos m) * bpow radix2 e).
Proof. unfold f_real, SF2R, F2R. cbn [Fnum Fexp cond_Zopp]. destruct s; cbn [cond_Zopp]; [rewrite opp_IZR|]; lra. Qed.

Lemma bpow_pos_Z : forall e, (0 <= e)%Z -> bpow radix2 e = IZR (2 ^ e).
Proof. intros e H. now rewrite <- IZR_Zpower by exact H. Qed.

Lemma bpow_neg_Z : forall e, (e < 0)%Z -> bpow radix2 e = / IZR (2 ^ (- e)).
Proof.
  intros e H. rewrite <- (Z.opp_involutive e) at 1. rewrite bpow_opp. now rewrite bpow_pos_Z by lia.
Qed.

Lemma pow2_pos : forall e, (0 <= e)%Z -> 0 < IZR (2 ^ e).
Proof. intros e H. apply IZR_lt. now apply Z.pow_pos_nonneg. Qed.

Lemma trunc_real : forall x, f_fin x -> f_trunc x = Ok (Ztrunc (f_real x)).
Proof.
  intros [s| | |s m e] F; try discriminate; cbn [f_trunc]; f_equal.
  - unfold f_real. cbn [SF2R]. now rewrite Ztrunc_IZR.
  - rewrite real_finite.
    assert (Ztrunc (IZR (Zpos m) * bpow radix2 e) =
      (if 0 <=? e then Zpos m * 2 ^ e else Zpos m / 2 ^ (- e))%Z) as E.
    { destruct (0 <=? e)%Z eqn:L.
      - apply Z.leb_le in L. now rewrite bpow_pos_Z, <- mult_IZR, Ztrunc_IZR.
      - apply Z.leb_gt in L. rewrite bpow_neg_Z by exact L.
        assert (0 < 2 ^ (- e))%Z as P by (apply Z.pow_pos_nonneg; lia).
        assert (0 < IZR (2 ^ (- e))) as PR by now apply IZR_lt.
        rewrite Ztrunc_floor by (apply Rmult_le_pos; [now apply IZR_le|left; now apply Rinv_0_lt_compat]).
        apply Zfloor_div. lia. }
    destruct s.
    + replace (-1 * (IZR (Zpos m) * bpow radix2 e)) with (- (IZR (Zpos m) * bpow radix2 e)) by lra.
      rewrite Ztrunc_opp, E. reflexivity.
    + replace (1 * (IZR (Zpos m) * bpow radix2 e)) with (IZR (Zpos m) * bpow radix2 e) by lra.
      now rewrite E.
Qed.

Lemma eq_Z_real : forall x n, f_fin x -> (f_eq_Z x n = true <-> f_real x = IZR n).
Proof.
  intros [s| | |s m e] n F; try discriminate; cbn [f_eq_Z].
  - unfold f_real. cbn [SF2R]. rewrite Z.eqb_eq. split; [now intros ->|]. intros H. symmetry. now apply eq_IZR.
  - rewrite real_finite. set (sm := if s then Zneg m else Zpos m).
    assert ((if s then -1 else 1) * (IZR (Zpos m) * bpow radix2 e) = IZR sm * bpow radix2 e) as E.
    { unfold sm. destruct s; [change (Zneg m) with (- Zpos m)%Z; rewrite opp_IZR|]; lra. }
    rewrite E. destruct (0 <=? e)%Z eqn:L; rewrite Z.eqb_eq.
    + apply Z.leb_le in L. rewrite bpow_pos_Z, <- mult_IZR by exact L.
      split; [now intros ->|apply eq_IZR].
    + apply Z.leb_gt in L. rewrite bpow_neg_Z by exact L.
      assert (0 < IZR (2 ^ (- e))) as PR by (apply pow2_pos; lia).
      split.
      * intros H. rewrite H, mult_IZR. field. lra.
      * intros H. apply eq_IZR. rewrite mult_IZR, <- H. field. lra.
Qed.

Lemma abs_ge_Z_real : forall x n, f_fin x -> (f_abs_ge_Z x n = true <-> IZR n <= Rabs (f_real x)).
Proof.
  intros [s| | |s m e] n F; try discriminate; cbn [f_abs_ge_Z].
  - unfold f_real. cbn [SF2R]. rewrite Z.leb_le, Rabs_R0. split; [apply IZR_le|apply le_IZR].
  - rewrite real_finite.
    assert (0 < IZR (Zpos m) * bpow radix2 e) as P.
    { apply Rmult_lt_0_compat; [now apply IZR_lt|apply bpow_gt_0]. }
    replace (Rabs ((if s then -1 else 1) * (IZR (Zpos m) * bpow radix2 e))) with (IZR (Zpos m) * bpow radix2 e).
    2:{ destruct s; [rewrite Rabs_left by lra|rewrite Rabs_right by lra]; lra. }
    destruct (0 <=? e)%Z eqn:L; rewrite Z.leb_le.
    + apply Z.leb_le in L. rewrite bpow_pos_Z, <- mult_IZR by exact L. split; [apply IZR_le|apply le_IZR].
    + apply Z.leb_gt in L. rewrite bpow_neg_Z by exact L.
      assert (0 < IZR (2 ^ (- e))) as PR by (apply pow2_pos; lia).
      split.
      * intros H. apply IZR_le in H. rewrite mult_IZR in H.
        apply Rmult_le_reg_r with (IZR (2 ^ (- e))); [exact PR|].
        rewrite Rmult_assoc, Rinv_l, Rmult_1_r by lra. exact H.
      * intros H. apply le_IZR. rewrite mult_IZR. apply Rmult_le_compat_r with (r := IZR (2 ^ (- e))) in H; [|lra].
        rewrite Rmult_assoc, Rinv_l, Rmult_1_r in H by lra. exact H.
Qed.
