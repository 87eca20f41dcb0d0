(** Facts about keyframe curves. *)
From Coq Require Import ZArith List Bool Reals Lra Lia.
From Coq.Floats Require Import SpecFloat.
From Flocq Require Import Core BinarySingleNaN Plus_error Relative.
From Verif Require Import Base IoCtx Exp10 Components Timeline FloatProofs Exp10Proofs CurveSpec.
Import ListNotations.
Open Scope R_scope.

Lemma ltb_real : forall x y, f_wf x -> f_wf y -> f_fin x -> f_fin y -> (fltb x y = true <-> f_real x < f_real y).
Proof.
  intros x y Wx Wy Fx Fy. apply to_b in Wx as [bx <-]. apply to_b in Wy as [b_y <-].
  rewrite !real_b. unfold f_fin in *. rewrite !fin_b in *.
  unfold fltb, SFltb.
  pose proof (Bcompare_correct 53 1024 bx b_y Fx Fy) as C. unfold Bcompare in C. rewrite C.
  destruct (Rcompare_spec (B2R bx) (B2R b_y)); split; intros; try discriminate; try lra; reflexivity.
Qed.

Lemma ltb_real_false : forall x y, f_wf x -> f_wf y -> f_fin x -> f_fin y ->
  (fltb x y = false <-> f_real y <= f_real x).
Proof.
  intros x y Wx Wy Fx Fy. pose proof (ltb_real x y Wx Wy Fx Fy) as H.
  destruct (fltb x y); split; intros G; try discriminate; try reflexivity.
  - pose proof (proj1 H eq_refl). lra.
  - apply Rnot_lt_le. intros L. apply H in L. discriminate.
Qed.

(** ** The search *)

Lemma mid_between : forall lo hi, (lo <= hi)%Z -> (lo <= (lo + hi) / 2 <= hi)%Z.
Proof. intros lo hi H. split; [apply Z.div_le_lower_bound|apply Z.div_le_upper_bound]; lia. Qed.

Lemma pcp_time_err : forall p e, pcp_time p = Err e -> e = ValueErr.
Proof.
  intros p e E. unfold pcp_time in E. destruct (pcp_offset_den p =? 0)%Z; [congruence|].
  destruct (pcp_timescale p =? 0)%Z; congruence.
Qed.

(** On any list at all the search ends, on an index of the list. *)
Lemma search_ends : forall fuel l t lo hi, (0 <= lo <= hi + 1)%Z -> (hi < len l)%Z ->
  (hi - lo + 1 < Z.of_nat fuel)%Z ->
  match search fuel l t lo hi with
  | Ok k => (0 <= k <= Z.max 0 hi)%Z
  | Err e => e = ValueErr
  end.
Proof.
  induction fuel as [|fuel IH]; intros l t lo hi L Hh H; [lia|].
  cbn [search]. destruct (Z.ltb_spec hi lo); [lia|].
  pose proof (mid_between lo hi ltac:(lia)) as M. set (m := ((lo + hi) / 2)%Z) in *.
  destruct (nth_error l (Z.to_nat m)) as [p|] eqn:N.
  2:{ exfalso. apply nth_error_None in N. unfold len in Hh. lia. }
  destruct (pcp_time p) as [x|e] eqn:E; [|now apply pcp_time_err in E].
  destruct (fltb x t).
  - specialize (IH l t (m + 1)%Z hi). destruct (search fuel l t (m + 1) hi); [apply IH; lia|]. apply IH; lia.
  - destruct (fltb t x); [|lia].
    specialize (IH l t lo (m - 1)%Z). destruct (search fuel l t lo (m - 1)).
    + assert (0 <= a <= Z.max 0 (m - 1))%Z; [apply IH; lia|lia].
    + apply IH; lia.
Qed.

Lemma search_right : forall fuel l ts t lo hi, has_times l ts -> increasing ts -> f_wf t -> f_fin t ->
  (0 <= lo <= hi + 1)%Z -> (hi < len l)%Z -> (hi - lo + 1 < Z.of_nat fuel)%Z ->
  (forall j b, (Z.of_nat j < lo)%Z -> nth_error ts j = Some b -> b < f_real t) ->
  (forall j b, (hi < Z.of_nat j)%Z -> nth_error ts j = Some b -> f_real t < b) ->
  exists k, search fuel l t lo hi = Ok (Z.of_nat k) /\ last_at_or_before ts (f_real t) k.
Proof.
  induction fuel as [|fuel IH]; intros l ts t lo hi HT HI Wt Ft L Hh H Lo Hi; [lia|].
  cbn [search]. destruct (Z.ltb_spec hi lo) as [D|D].
  - exists (Z.to_nat (Z.max 0 hi)). rewrite Z2Nat.id by lia. split; [reflexivity|].
    destruct (Z.eq_dec lo 0) as [->|Z0].
    + right. split; [lia|]. intros j b N. apply (Hi j b); [lia|exact N].
    + left. destruct (nth_error ts (Z.to_nat (Z.max 0 hi))) as [a|] eqn:N.
      * exists a. split; [reflexivity|]. split.
        -- left. apply (Lo (Z.to_nat (Z.max 0 hi)) a); [lia|exact N].
        -- intros j b J Nb. apply (Hi j b); [lia|exact Nb].
      * exfalso. apply nth_error_None in N. destruct HT as [HL _]. unfold len in Hh. lia.
  - pose proof (mid_between lo hi ltac:(lia)) as M. set (m := ((lo + hi) / 2)%Z) in *.
    destruct (nth_error l (Z.to_nat m)) as [p|] eqn:N.
    2:{ exfalso. apply nth_error_None in N. unfold len in Hh. lia. }
    destruct (proj2 HT _ _ N) as (x & tx & Ex & Wx & Fx & Rx & Nx). rewrite Ex.
    destruct (fltb x t) eqn:C1.
    + apply (ltb_real _ _ Wx Wt Fx Ft) in C1.
      apply (IH l ts t (m + 1)%Z hi HT HI Wt Ft); try lia; [|exact Hi].
      intros j b J Nb. destruct (Nat.eq_dec j (Z.to_nat m)) as [->|Nj].
      * rewrite Nx in Nb. injection Nb as <-. lra.
      * assert (b < tx) by (apply (HI j (Z.to_nat m)); auto; lia). lra.
    + destruct (fltb t x) eqn:C2.
      * apply (ltb_real _ _ Wt Wx Ft Fx) in C2.
        apply (IH l ts t lo (m - 1)%Z HT HI Wt Ft); try lia; [exact Lo|].
        intros j b J Nb. destruct (Nat.eq_dec j (Z.to_nat m)) as [->|Nj].
        -- rewrite Nx in Nb. injection Nb as <-. lra.
        -- assert (tx < b) by (apply (HI (Z.to_nat m) j); auto; lia). lra.
      * apply (ltb_real_false _ _ Wx Wt Fx Ft) in C1. apply (ltb_real_false _ _ Wt Wx Ft Fx) in C2.
        exists (Z.to_nat m). rewrite Z2Nat.id by lia. split; [reflexivity|]. left.
        exists tx. split; [exact Nx|]. split; [lra|].
        intros j b J Nb. assert (tx < b) by (apply (HI (Z.to_nat m) j); auto). lra.
Qed.

Lemma nearest_index_right : forall l ts t, l <> [] -> has_times l ts -> increasing ts -> f_wf t -> f_fin t ->
  exists k, nearest_index l t = Ok (Z.of_nat k) /\ (k < length l)%nat /\ last_at_or_before ts (f_real t) k.
Proof.
  intros l ts t Hl HT HI Wt Ft. unfold nearest_index. destruct l as [|p0 l0]; [congruence|].
  set (l := p0 :: l0) in *.
  assert (1 <= len l)%Z as L1 by (unfold len, l; cbn [length]; lia).
  destruct (search_right (S (length l)) l ts t 0 (len l - 1) HT HI Wt Ft) as (k & E & K); try lia.
  - unfold len. lia.
  - intros j b J N. exfalso. unfold len in J. assert (nth_error ts j <> None) as Q by congruence.
    apply nth_error_Some in Q. destruct HT as [HL _]. lia.
  - exists k. split; [exact E|]. split; [|exact K].
    pose proof (search_ends (S (length l)) l t 0 (len l - 1)) as B. rewrite E in B.
    unfold len in *. lia.
Qed.

(** The index is the only one of its kind. *)
Lemma last_at_or_before_unique : forall ts t j k, increasing ts ->
  last_at_or_before ts t j -> last_at_or_before ts t k -> j = k.
Proof.
  intros ts t j k HI [(a & Na & La & Ga)|[-> G]] [(b & Nb & Lb & Gb)|[-> G']].
  - destruct (Nat.lt_trichotomy j k) as [Q|[Q|Q]]; auto; exfalso.
    + specialize (Ga _ _ Q Nb). lra.
    + specialize (Gb _ _ Q Na). lra.
  - specialize (G' _ _ Na). lra.
  - specialize (G _ _ Nb). lra.
  - reflexivity.
Qed.

(** ** Times *)

Lemma rnd_abs_le : forall y z, exact z -> Rabs y <= z -> Rabs (rnd y) <= z.
Proof.
  intros y z X H. apply Rabs_le_inv in H. apply Rabs_le. split.
  - rewrite <- (rnd_exact _ X). replace (- rnd z) with (rnd (- z)) by (unfold rnd; apply round_NE_opp).
    apply rnd_le. lra.
  - rewrite <- (rnd_exact _ X). apply rnd_le. lra.
Qed.

Lemma pow2_exact : forall k, (0 <= k <= 900)%Z -> exact (bpow radix2 k).
Proof.
  intros k H. replace (bpow radix2 k) with (IZR 1 * bpow radix2 k) by lra. apply exact_float; lia.
Qed.

Lemma below_fmax : forall y k, (k < 1024)%Z -> Rabs y <= bpow radix2 k -> Rabs y < fmax.
Proof. intros y k K H. eapply Rle_lt_trans; [exact H|]. unfold fmax. apply bpow_lt. lia. Qed.

Lemma s32_abs : forall n, (- 2 ^ 31 <= n < 2 ^ 31)%Z -> Rabs (IZR n) <= bpow radix2 31.
Proof. intros n H. rewrite <- abs_IZR. rewrite bpow_pos_Z by lia. apply IZR_le. lia. Qed.

(** The time of a keyframe is a finite double of moderate size, a quotient and a product rounded. *)
Lemma keyframe_time : forall p, keyframe_ok p -> exists x, pcp_time p = Ok x /\ f_wf x /\ f_fin x /\
  f_real x = rnd (rnd (IZR (pcp_offset_num p) / IZR (pcp_offset_den p)) * IZR (pcp_timescale p)) /\
  Rabs (f_real x) <= bpow radix2 62.
Proof.
  intros p (Hn & Hd & Hd0 & Ht & Ht0). unfold pcp_time.
  rewrite (proj2 (Z.eqb_neq _ _) Hd0), (proj2 (Z.eqb_neq _ _) Ht0).
  destruct (of_Z_exact (pcp_offset_num p)) as (W1 & F1 & R1); [lia|].
  destruct (of_Z_exact (pcp_offset_den p)) as (W2 & F2 & R2); [lia|].
  destruct (of_Z_exact (pcp_timescale p)) as (W3 & F3 & R3); [lia|].
  assert (IZR (pcp_offset_den p) <> 0) as D0 by (apply not_0_IZR; exact Hd0).
  assert (Rabs (IZR (pcp_offset_num p) / IZR (pcp_offset_den p)) <= bpow radix2 31) as Q.
  { unfold Rdiv. rewrite Rabs_mult. rewrite <- (Rmult_1_r (bpow radix2 31)).
    apply Rmult_le_compat; [apply Rabs_pos|apply Rabs_pos|now apply s32_abs|].
    rewrite Rabs_inv. rewrite <- Rinv_1. apply Rinv_le; [lra|]. rewrite <- abs_IZR. apply IZR_le. lia. }
  apply (rnd_abs_le _ _ (pow2_exact 31 ltac:(lia))) in Q.
  destruct (div_real _ _ W1 W2 F1) as (A & B & C); [congruence|rewrite R1, R2; now apply (below_fmax _ 31)|].
  rewrite R1, R2 in C.
  assert (Rabs (f_real (fdiv (f_of_Z (pcp_offset_num p)) (f_of_Z (pcp_offset_den p))) * f_real (f_of_Z (pcp_timescale p)))
    <= bpow radix2 62) as P.
  { rewrite C, R3, Rabs_mult. change 62%Z with (31 + 31)%Z. rewrite bpow_plus.
    apply Rmult_le_compat; [apply Rabs_pos|apply Rabs_pos|exact Q|now apply s32_abs]. }
  apply (rnd_abs_le _ _ (pow2_exact 62 ltac:(lia))) in P.
  destruct (mul_real _ _ A W3 B F3) as (A' & B' & C'); [now apply (below_fmax _ 62)|].
  eexists. split; [reflexivity|]. split; [exact A'|]. split; [exact B'|]. rewrite C', C, R3 in *.
  split; [reflexivity|exact P].
Qed.

(** ** Linear interpolation *)

Lemma rnd_opp : forall y, rnd (- y) = - rnd y.
Proof. intros y. unfold rnd. apply round_NE_opp. Qed.

Lemma rnd_sub_0 : forall a b, exact a -> exact b -> a <> b -> rnd (b - a) <> 0.
Proof.
  intros a b A B N. unfold rnd, Rminus. 
  assert (Prec_gt_0 53) as Hp by reflexivity. apply round_plus_neq_0; try typeclasses eauto.
  - exact B.
  - apply generic_format_opp. exact A.
  - lra.
Qed.

Lemma not_zero : forall x, f_real x <> 0 -> f_is_zero x = false.
Proof. intros [s| | |s m e] H; try reflexivity. now cbn in H. Qed.

Lemma zero_cases : forall x, f_fin x -> f_real x = 0 -> f_is_zero x = true.
Proof.
  intros [s| | |s m e] F H; try discriminate; [reflexivity|]. rewrite real_finite in H.
  assert (0 < IZR (Zpos m) * bpow radix2 e) by (apply Rmult_lt_0_compat; [now apply IZR_lt|apply bpow_gt_0]).
  destruct s; lra.
Qed.

(** The share of the way from one time to the other. *)
Lemma share_real : forall t t1 t2, f_wf t -> f_wf t1 -> f_wf t2 -> f_fin t -> f_fin t1 -> f_fin t2 ->
  Rabs (f_real t1) <= bpow radix2 62 -> Rabs (f_real t2) <= bpow radix2 62 ->
  f_real t1 <= f_real t -> f_real t <= f_real t2 -> f_real t1 < f_real t2 ->
  f_is_zero (fsub t2 t1) = false /\
  let w := fdiv (fsub t t1) (fsub t2 t1) in
  f_wf w /\ f_fin w /\ 0 <= f_real w <= 1 /\ (f_real t = f_real t1 -> f_real w = 0).
Proof.
  intros t t1 t2 W W1 W2 F F1 F2 B1 B2 L1 L2 L.
  apply Rabs_le_inv in B1. apply Rabs_le_inv in B2.
  assert (Rabs (f_real t2 - f_real t1) <= bpow radix2 63) as D2.
  { apply Rabs_le. change 63%Z with (1 + 62)%Z. rewrite bpow_plus. change (bpow radix2 1) with 2. lra. }
  assert (Rabs (f_real t - f_real t1) <= bpow radix2 63) as D1.
  { apply Rabs_le. change 63%Z with (1 + 62)%Z. rewrite bpow_plus. change (bpow radix2 1) with 2. lra. }
  pose proof (rnd_abs_le _ _ (pow2_exact 63 ltac:(lia)) D2) as E2.
  pose proof (rnd_abs_le _ _ (pow2_exact 63 ltac:(lia)) D1) as E1.
  destruct (sub_real _ _ W2 W1 F2 F1) as (A2 & C2 & R2); [now apply (below_fmax _ 63)|].
  destruct (sub_real _ _ W W1 F F1) as (A1 & C1 & R1); [now apply (below_fmax _ 63)|].
  assert (0 < rnd (f_real t2 - f_real t1)) as P2.
  { assert (0 <= rnd (f_real t2 - f_real t1)) as G by (rewrite <- rnd_0; apply rnd_le; lra).
    assert (rnd (f_real t2 - f_real t1) <> 0) as N; [|lra].
    apply rnd_sub_0; [now apply exact_real..|lra]. }
  assert (0 <= rnd (f_real t - f_real t1)) as P1 by (rewrite <- rnd_0; apply rnd_le; lra).
  assert (rnd (f_real t - f_real t1) <= rnd (f_real t2 - f_real t1)) as P12 by (apply rnd_le; lra).
  assert (0 <= rnd (f_real t - f_real t1) / rnd (f_real t2 - f_real t1) <= 1) as Q.
  { split.
    - unfold Rdiv. apply Rmult_le_pos; [exact P1|]. left. now apply Rinv_0_lt_compat.
    - apply Rmult_le_reg_r with (rnd (f_real t2 - f_real t1)); [exact P2|]. unfold Rdiv.
      rewrite Rmult_assoc, Rinv_l by lra. lra. }
  assert (0 <= rnd (rnd (f_real t - f_real t1) / rnd (f_real t2 - f_real t1)) <= 1) as QR.
  { split.
    - rewrite <- rnd_0 at 1. apply rnd_le. lra.
    - rewrite <- (rnd_exact 1) by (apply (exact_int 1); lia). apply rnd_le. lra. }
  split; [apply not_zero; rewrite R2; lra|].
  destruct (div_real _ _ A1 A2 C1) as (A & C & R); [rewrite R2; lra| |].
  { rewrite R1, R2. apply (below_fmax _ 0); [lia|]. change (bpow radix2 0) with 1. apply Rabs_le. lra. }
  rewrite R1, R2 in R. cbv zeta. split; [exact A|]. split; [exact C|]. rewrite R. split; [exact QR|].
  intros E. rewrite E. replace (f_real t1 - f_real t1) with 0 by ring. rewrite rnd_0. unfold Rdiv.
  now rewrite Rmult_0_l, rnd_0.
Qed.

(** ** No overshoot *)

#[local] Instance prec53 : Prec_gt_0 53 := eq_refl.
Notation fexp64 := (FLT_exp (-1074) 53).

Lemma pred_1 : pred radix2 fexp64 1 = 1 - u53.
Proof. change 1 with (bpow radix2 0). rewrite pred_bpow. reflexivity. Qed.

Lemma below_1 : forall s, exact s -> s < 1 -> s <= 1 - u53.
Proof.
  intros s X H. rewrite <- pred_1. apply pred_ge_gt; [typeclasses eauto|exact X| |exact H].
  apply (exact_int 1). lia.
Qed.

(** Two different doubles differ by more than 2^-54 of the greater. *)
Lemma gap : forall x y, exact x -> exact y -> 0 < x < y -> y * bpow radix2 (-54) < y - x.
Proof.
  intros x y X Y H.
  assert (x <= pred radix2 fexp64 y) as P by (apply pred_ge_gt; [typeclasses eauto|exact X|exact Y|lra]).
  pose proof (pred_plus_ulp radix2 fexp64 y ltac:(lra) Y) as E.
  pose proof (ulp_FLT_gt radix2 (-1074) 53 (pred radix2 fexp64 y)) as U.
  set (q := pred radix2 fexp64 y) in *. set (g := ulp radix2 fexp64 q) in *.
  rewrite Rabs_right in U by lra. change (- (53))%Z with (-53)%Z in U.
  assert (u53 = / 9007199254740992) as E53 by (apply (bpow_neg_Z (-53)); lia).
  assert (bpow radix2 (-54) = / 18014398509481984) as E54 by (apply (bpow_neg_Z (-54)); lia).
  rewrite E53 in U. rewrite E54. lra.
Qed.

(** The share is below 1 when the rounded differences differ. *)
Lemma share_below_1 : forall x y, exact x -> exact y -> 0 <= x < y -> rnd (x / y) < 1.
Proof.
  intros x y X Y H.
  assert (rnd (x / y) <= 1 - u53) as Q.
  { rewrite <- pred_1. apply round_N_le_midp; [typeclasses eauto| |].
    - apply generic_format_pred; [typeclasses eauto|]. apply (exact_int 1). lia.
    - rewrite succ_pred; [|typeclasses eauto|apply (exact_int 1); lia]. rewrite pred_1.
      assert (bpow radix2 (-54) = / 18014398509481984) as E54 by (apply (bpow_neg_Z (-54)); lia).
      assert (u53 = / 9007199254740992) as E53 by (apply (bpow_neg_Z (-53)); lia).
      assert (0 < y) as Py by lra.
      apply Rmult_lt_reg_r with y; [exact Py|]. unfold Rdiv. rewrite Rmult_assoc, Rinv_l by lra.
      destruct (Req_dec x 0) as [->|Nx]; [rewrite E53; lra|].
      pose proof (gap x y X Y ltac:(lra)) as G. rewrite E54 in G. rewrite E53. lra. }
  pose proof (bpow_gt_0 radix2 (-53)). lra.
Qed.

(** A double is a whole number of the least double. *)
Lemma exact_units : forall x, exact x -> exists n, x = IZR n * tiny.
Proof.
  intros x X. apply FLT_format_generic in X; [|typeclasses eauto]. destruct X as [[m e] E _ He].
  exists (m * 2 ^ (e + 1074))%Z. rewrite E. unfold F2R. cbn [Fnum Fexp] in *.
  rewrite mult_IZR, Rmult_assoc. f_equal. rewrite <- bpow_pos_Z by lia. rewrite <- bpow_plus. f_equal. lia.
Qed.

Lemma small_sub_exact : forall a b, exact a -> exact b -> Rabs (b - a) <= bpow radix2 (-1022) -> exact (b - a).
Proof.
  intros a b A B H. destruct (exact_units a A) as [n ->]. destruct (exact_units b B) as [k ->].
  replace (IZR k * tiny - IZR n * tiny) with (IZR (k - n) * tiny) in * by (rewrite minus_IZR; ring).
  apply exact_float; [|lia]. rewrite Rabs_mult, (Rabs_right tiny) in H by (apply Rle_ge, bpow_ge_0).
  replace (bpow radix2 (-1022)) with (IZR (2 ^ 52) * tiny) in H.
  2:{ rewrite <- bpow_pos_Z by lia. rewrite <- bpow_plus. f_equal. }
  apply Rmult_le_reg_r in H; [|apply bpow_gt_0]. rewrite <- abs_IZR in H. apply le_IZR in H. lia.
Qed.

Lemma scaled_le : forall a b s, exact a -> exact b -> a <= b -> 0 <= s <= 1 - u53 ->
  rnd (rnd (b - a) * s) <= b - a.
Proof.
  intros a b s A B H Hs. set (y := b - a) in *. set (d := rnd y).
  assert (0 <= y) as Y0 by (unfold y; lra).
  assert (0 <= d) as D0 by (unfold d; rewrite <- rnd_0; apply rnd_le; lra).
  pose proof (bpow_gt_0 radix2 (-53)) as U0.
  apply Rnot_lt_le. intros G.
  assert (d <= rnd (d * s)) as L.
  { rewrite <- (rnd_exact (rnd (d * s))) by apply exact_rnd. unfold d at 1. apply rnd_le. lra. }
  assert (d * s <= d * (1 - u53)) as L2 by (apply Rmult_le_compat_l; lra).
  destruct (Rle_or_lt (bpow radix2 (-1022)) (d * s)) as [N|N].
  - assert (Rabs (rnd (d * s) - d * s) <= u53 * Rabs (d * s)) as E.
    { pose proof (relative_error_N_FLT radix2 (-1074) 53 eq_refl (fun z => negb (Z.even z)) (d * s)) as R.
      change (-1074 + 53 - 1)%Z with (-1022)%Z in R.
      rewrite (Rabs_right (d * s)) in * by (pose proof (bpow_gt_0 radix2 (-1022)); lra). specialize (R N).
      eapply Rle_trans; [exact R|]. right. change (- (53) + 1)%Z with (1 + -53)%Z. rewrite bpow_plus.
      change (bpow radix2 1) with 2. lra. }
    assert (0 < d * s) as P by (pose proof (bpow_gt_0 radix2 (-1022)); lra).
    rewrite (Rabs_right (d * s)) in E by lra. apply Rabs_le_inv in E.
    assert (u53 * (d * s) <= u53 * (d * (1 - u53))) as E2 by (apply Rmult_le_compat_l; lra).
    assert (0 < d) as Pd by nra.
    assert (0 < u53 * (d * u53)) as E3 by (apply Rmult_lt_0_compat; [lra|]; apply Rmult_lt_0_compat; lra). nra.
  - assert (exact (bpow radix2 (-1022))) as XB.
    { replace (bpow radix2 (-1022)) with (IZR 1 * bpow radix2 (-1022)) by lra. apply exact_float; lia. }
    assert (rnd (d * s) <= bpow radix2 (-1022)) as S.
    { rewrite <- (rnd_exact _ XB). apply rnd_le. lra. }
    assert (exact y) as X by (apply small_sub_exact; [exact A|exact B|]; fold y; rewrite Rabs_right by lra; lra).
    assert (d = y) as E by (unfold d; now apply rnd_exact).
    assert (d * s <= y) as Q by (rewrite E in *; nra).
    assert (rnd (d * s) <= y); [|lra]. rewrite <- (rnd_exact y X). now apply rnd_le.
Qed.

Lemma lerp_inside : forall v1 v2 w, f_wf v1 -> f_wf v2 -> f_wf w -> f_fin v1 -> f_fin v2 -> f_fin w ->
  0 <= f_real w < 1 -> Rabs (rnd (f_real v2 - f_real v1)) < fmax ->
  f_fin (lerp v1 v2 w) /\
  (f_real v1 <= f_real v2 -> f_real v1 <= f_real (lerp v1 v2 w) <= f_real v2) /\
  (f_real v2 <= f_real v1 -> f_real v2 <= f_real (lerp v1 v2 w) <= f_real v1).
Proof.
  intros v1 v2 w W1 W2 W F1 F2 F Hw Ov. unfold lerp.
  pose proof (below_1 _ (exact_real _ W) (proj2 Hw)) as Hs.
  pose proof (exact_real _ W1) as Xa. pose proof (exact_real _ W2) as Xb.
  pose proof (finite_below _ W1 F1) as Oa. pose proof (finite_below _ W2 F2) as Ob.
  set (a := f_real v1) in *. set (b := f_real v2) in *. set (s := f_real w) in *.
  destruct (sub_real _ _ W2 W1 F2 F1 Ov) as (Ad & Cd & Rd). fold a b in Rd.
  assert ((a <= b -> 0 <= rnd (rnd (b - a) * s) <= b - a) /\ (b <= a -> b - a <= rnd (rnd (b - a) * s) <= 0)) as [M1 M2].
  { split; intros H.
    - split; [|now apply scaled_le].
      assert (0 <= rnd (b - a)) as D by (rewrite <- rnd_0; apply rnd_le; lra).
      rewrite <- rnd_0. apply rnd_le. apply Rmult_le_pos; lra.
    - pose proof (scaled_le b a s Xb Xa H ltac:(lra)) as Q.
      replace (b - a) with (- (a - b)) by ring. rewrite rnd_opp.
      replace (- rnd (a - b) * s) with (- (rnd (a - b) * s)) by ring. rewrite rnd_opp.
      assert (0 <= rnd (a - b)) as D by (rewrite <- rnd_0; apply rnd_le; lra).
      assert (0 <= rnd (rnd (a - b) * s)).
      { rewrite <- rnd_0. apply rnd_le. apply Rmult_le_pos; lra. }
      lra. }
  assert (Rabs (rnd (rnd (b - a) * s)) <= Rabs (b - a)) as Om.
  { destruct (Rle_or_lt a b) as [H|H].
    - specialize (M1 H). rewrite !Rabs_right by lra. lra.
    - specialize (M2 ltac:(lra)). rewrite !Rabs_left1 by lra. lra. }
  assert (Rabs (rnd (rnd (b - a) * s)) < fmax) as Om'.
  { eapply Rle_lt_trans; [|exact Ov].
    rewrite <- (rnd_exact (rnd (rnd (b - a) * s))) by apply exact_rnd.
    destruct (Rle_or_lt a b) as [H|H].
    - specialize (M1 H). assert (0 <= rnd (b - a)) by (rewrite <- rnd_0; apply rnd_le; lra).
      rewrite (Rabs_right (rnd (b - a))) by lra.
      assert (rnd (rnd (rnd (b - a) * s)) <= rnd (b - a)) by (apply rnd_le; lra).
      assert (0 <= rnd (rnd (rnd (b - a) * s))) by (rewrite <- rnd_0; apply rnd_le; lra).
      rewrite Rabs_right by lra. lra.
    - specialize (M2 ltac:(lra)). assert (rnd (b - a) <= 0) by (rewrite <- rnd_0; apply rnd_le; lra).
      rewrite (Rabs_left1 (rnd (b - a))) by lra.
      assert (rnd (b - a) <= rnd (rnd (rnd (b - a) * s))) by (apply rnd_le; lra).
      assert (rnd (rnd (rnd (b - a) * s)) <= 0) by (rewrite <- rnd_0; apply rnd_le; lra).
      rewrite Rabs_left1 by lra. lra. }
  destruct (mul_real _ _ Ad W Cd F) as (Am & Cm & Rm); [rewrite Rd; exact Om'|].
  rewrite Rd in Rm. fold s in Rm. set (m := rnd (rnd (b - a) * s)) in *.
  assert ((a <= b -> a <= rnd (a + m) <= b) /\ (b <= a -> b <= rnd (a + m) <= a)) as [S1 S2].
  { split; intros H; [specialize (M1 H)|specialize (M2 H)]; split.
    - apply Rle_trans with (rnd a); [right; symmetry; now apply rnd_exact|apply rnd_le; lra].
    - apply Rle_trans with (rnd b); [apply rnd_le; lra|right; now apply rnd_exact].
    - apply Rle_trans with (rnd b); [right; symmetry; now apply rnd_exact|apply rnd_le; lra].
    - apply Rle_trans with (rnd a); [apply rnd_le; lra|right; now apply rnd_exact]. }
  destruct (add_real _ _ W1 Am F1 Cm) as (Az & Cz & Rz).
  { rewrite Rm. fold a. apply Rabs_lt_inv in Oa. apply Rabs_lt_inv in Ob. apply Rabs_lt.
    destruct (Rle_or_lt a b) as [H|H]; [specialize (S1 H)|specialize (S2 ltac:(lra))]; lra. }
  rewrite Rm in Rz. fold a in Rz. rewrite Rz. auto.
Qed.

(** ** Values of curves *)

Lemma times_at : forall l ts k p, has_times l ts -> nth_error l k = Some p ->
  exists x, pcp_time p = Ok x /\ f_wf x /\ f_fin x /\ nth_error ts k = Some (f_real x).
Proof.
  intros l ts k p [_ H] N. destruct (H k p N) as (x & t & A & B & C & D & E). subst t. eauto 10.
Qed.

Lemma index_found : forall l ts t k p, has_times l ts -> increasing ts -> f_wf t -> f_fin t ->
  nth_error l k = Some p -> last_at_or_before ts (f_real t) k ->
  nearest_index l t = Ok (Z.of_nat k).
Proof.
  intros l ts t k p HT HI Wt Ft N K.
  destruct (nearest_index_right l ts t) as (j & E & _ & J); auto.
  - intros ->. now destruct k.
  - now rewrite E, (last_at_or_before_unique ts (f_real t) j k HI J K).
Qed.

Lemma before_first : forall smooth kind l ts t p, has_times l ts -> increasing ts -> f_wf t -> f_fin t ->
  nth_error l 0 = Some p -> (forall j b, nth_error ts j = Some b -> f_real t < b) ->
  value_at smooth kind l t = cp_float (pcp_value p).
Proof.
  intros smooth kind l ts t p HT HI Wt Ft N B. unfold value_at.
  rewrite (index_found l ts t 0 p) by (auto; right; auto).
  rewrite Nat2Z.id, N. destruct (times_at _ _ _ _ HT N) as (x & Ex & Wx & Fx & Nx). rewrite Ex.
  rewrite (proj2 (ltb_real t x Wt Wx Ft Fx)) by (eapply B; eauto). reflexivity.
Qed.

Lemma after_last : forall smooth kind l ts t k p, has_times l ts -> increasing ts -> f_wf t -> f_fin t ->
  nth_error l k = Some p -> length l = S k -> (forall a, nth_error ts k = Some a -> a <= f_real t) ->
  value_at smooth kind l t = cp_float (pcp_value p).
Proof.
  intros smooth kind l ts t k p HT HI Wt Ft N L B.
  destruct (times_at _ _ _ _ HT N) as (x & Ex & Wx & Fx & Nx). specialize (B _ Nx).
  unfold value_at. rewrite (index_found l ts t k p); auto.
  2:{ left. exists (f_real x). split; [exact Nx|]. split; [exact B|]. intros j b J Nb. exfalso.
      assert (nth_error ts j <> None) as Q by congruence. apply nth_error_Some in Q. destruct HT as [HL _]. lia. }
  rewrite Nat2Z.id, N, Ex. unfold len. rewrite L.
  destruct (fltb t x); [reflexivity|]. cbn [orb].
  destruct (Z.leb_spec (Z.of_nat (S k)) (Z.of_nat k + 1)); [reflexivity|lia].
Qed.

(** Between keyframe [k] and the next. *)
Lemma between : forall smooth kind l ts t k p q a b, has_times l ts -> increasing ts -> f_wf t -> f_fin t ->
  nth_error l k = Some p -> nth_error l (S k) = Some q ->
  nth_error ts k = Some a -> nth_error ts (S k) = Some b -> a <= f_real t < b ->
  exists x y, pcp_time p = Ok x /\ pcp_time q = Ok y /\ f_wf x /\ f_wf y /\ f_fin x /\ f_fin y /\
    f_real x = a /\ f_real y = b /\
    (kind = 2%Z -> value_at smooth kind l t = cp_float (pcp_value p)) /\
    (kind = 3%Z -> forall v1 v2, cp_float (pcp_value p) = Ok v1 -> cp_float (pcp_value q) = Ok v2 ->
       f_is_zero (fsub y x) = false ->
       value_at smooth kind l t = Ok (lerp v1 v2 (fdiv (fsub t x) (fsub y x)))).
Proof.
  intros smooth kind l ts t k p q a b HT HI Wt Ft Np Nq Na Nb H.
  destruct (times_at _ _ _ _ HT Np) as (x & Ex & Wx & Fx & Nx).
  destruct (times_at _ _ _ _ HT Nq) as (y & Ey & Wy & Fy & Ny).
  rewrite Na in Nx. injection Nx as Nx. rewrite Nb in Ny. injection Ny as Ny.
  assert (last_at_or_before ts (f_real t) k) as K.
  { left. exists a. split; [exact Na|]. split; [lra|]. intros j c J Nc.
    destruct (Nat.eq_dec j (S k)) as [->|Nj]; [rewrite Nb in Nc; injection Nc as <-; lra|].
    assert (b < c) by (apply (HI (S k) j); auto; lia). lra. }
  exists x, y. split; [exact Ex|]. split; [exact Ey|].
  do 6 (split; [auto|]).
  assert (fltb t x = false) as Lt by (apply (ltb_real_false t x); auto; lra).
  assert (len l <=? Z.of_nat k + 1 = false)%Z as Ln.
  { apply Z.leb_gt. unfold len. assert (nth_error l (S k) <> None) as Q by congruence.
    apply nth_error_Some in Q. lia. }
  unfold value_at. rewrite (index_found l ts t k p HT HI Wt Ft Np K), Nat2Z.id, Np, Ex, Lt, Ln. cbn [orb].
  split; [now intros ->|]. intros ->. cbn [Z.eqb Pos.eqb].
  intros v1 v2 E1 E2 Z0.
  replace (Z.to_nat (Z.of_nat k + 1)) with (S k) by lia. rewrite Nq, Ey, Z0, E1, E2.
  unfold linear_value. now rewrite Z0.
Qed.

Lemma lerp_zero : forall v1 v2 w, f_wf v1 -> f_wf v2 -> f_wf w -> f_fin v1 -> f_fin v2 -> f_fin w ->
  f_real w = 0 -> Rabs (rnd (f_real v2 - f_real v1)) < fmax -> f_real (lerp v1 v2 w) = f_real v1.
Proof.
  intros v1 v2 w W1 W2 W F1 F2 F Hw Ov. unfold lerp.
  destruct (sub_real _ _ W2 W1 F2 F1 Ov) as (Ad & Cd & Rd).
  assert (forall u, rnd (u * f_real w) = 0) as Z0 by (intros u; rewrite Hw, Rmult_0_r; apply rnd_0).
  destruct (mul_real _ _ Ad W Cd F) as (Am & Cm & Rm).
  { rewrite Z0, Rabs_R0. unfold fmax. apply bpow_gt_0. }
  rewrite Z0 in Rm. pose proof (exact_real _ W1) as X.
  destruct (add_real _ _ W1 Am F1 Cm) as (Az & Cz & Rz).
  { rewrite Rm, Rplus_0_r, rnd_exact by exact X. now apply finite_below. }
  rewrite Rz, Rm, Rplus_0_r. now apply rnd_exact.
Qed.

Lemma share_lt_1 : forall t t1 t2, f_wf t -> f_wf t1 -> f_wf t2 -> f_fin t -> f_fin t1 -> f_fin t2 ->
  Rabs (f_real t1) <= bpow radix2 62 -> Rabs (f_real t2) <= bpow radix2 62 ->
  f_real t1 <= f_real t -> f_real t <= f_real t2 ->
  rnd (f_real t - f_real t1) < rnd (f_real t2 - f_real t1) ->
  f_real (fdiv (fsub t t1) (fsub t2 t1)) < 1.
Proof.
  intros t t1 t2 W W1 W2 F F1 F2 B1 B2 L1 L2 L.
  apply Rabs_le_inv in B1. apply Rabs_le_inv in B2.
  assert (Rabs (f_real t2 - f_real t1) <= bpow radix2 63) as D2.
  { apply Rabs_le. change 63%Z with (1 + 62)%Z. rewrite bpow_plus. change (bpow radix2 1) with 2. lra. }
  assert (Rabs (f_real t - f_real t1) <= bpow radix2 63) as D1.
  { apply Rabs_le. change 63%Z with (1 + 62)%Z. rewrite bpow_plus. change (bpow radix2 1) with 2. lra. }
  pose proof (rnd_abs_le _ _ (pow2_exact 63 ltac:(lia)) D2) as E2.
  pose proof (rnd_abs_le _ _ (pow2_exact 63 ltac:(lia)) D1) as E1.
  destruct (sub_real _ _ W2 W1 F2 F1) as (A2 & C2 & R2); [now apply (below_fmax _ 63)|].
  destruct (sub_real _ _ W W1 F F1) as (A1 & C1 & R1); [now apply (below_fmax _ 63)|].
  assert (0 <= rnd (f_real t - f_real t1)) as P1 by (rewrite <- rnd_0; apply rnd_le; lra).
  pose proof (share_below_1 _ _ (exact_rnd (f_real t - f_real t1)) (exact_rnd (f_real t2 - f_real t1)) ltac:(lra)) as S.
  destruct (div_real _ _ A1 A2 C1) as (A & C & R); [rewrite R2; lra| |].
  { rewrite R1, R2. apply (below_fmax _ 0); [lia|]. change (bpow radix2 0) with 1.
    assert (0 <= rnd (rnd (f_real t - f_real t1) / rnd (f_real t2 - f_real t1))).
    { rewrite <- rnd_0 at 1. apply rnd_le. unfold Rdiv. apply Rmult_le_pos; [lra|]. left. apply Rinv_0_lt_compat. lra. }
    apply Rabs_le. lra. }
  rewrite R, R1, R2. exact S.
Qed.
