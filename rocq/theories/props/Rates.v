(** Properties C04, C05 and C51. [f_wf], [f_fin] and [f_real] (FloatProofs.v) say that a value
    is a double, that it is finite, and which real number it is. *)
From Coq Require Import ZArith List Bool Reals Lra Lia.
From Coq.Floats Require Import SpecFloat.
From Flocq Require Import Core.
From Verif Require Import Base IoCtx Exp10 Timeline FloatProofs Exp10Proofs.
Import ListNotations.
Open Scope R_scope.

(** ** C04 *)

(** A whole number in the range of 32 bits comes back as that number, whatever follows. *)
Theorem C04_whole_number_survives : forall bo x n, f_wf x -> f_fin x -> f_real x = IZR n ->
  (- 2 ^ 31 <= n < 2 ^ 31)%Z -> n <> 5994%Z ->
  exists b y, wexp10 bo x = Ok b /\ (forall rest, rexp10 bo (b ++ rest) = Ok (y, rest)) /\
    f_fin y /\ f_real y = IZR n /\ (n <> 0%Z -> y = x).
Proof.
  intros bo x n W F E Hn H. pose proof (parts_whole x n F E H) as P.
  destruct (pair_written bo x n 0 P) as (b & Wb & Hb); [lia|lia|].
  destruct (of_Z_exact n) as (Wn & Fn & Rn); [lia|].
  exists b, (f_of_Z n). split; [exact Wb|]. split.
  - intros rest. eapply holds_read; [exact Hb|]. apply value_whole. lia.
  - split; [exact Fn|]. split; [exact Rn|]. intros N. apply real_inj; auto; [congruence|].
    rewrite Rn. intros Z. now apply eq_IZR in Z.
Qed.
Print Assumptions C04_whole_number_survives.

(** The one exception. *)
Theorem C04_5994_comes_back_as_59_94 : forall bo, exists b, wexp10 bo (f_of_Z 5994) = Ok b /\
  forall rest, rexp10 bo (b ++ rest) = Ok (fdiv (f_of_Z 5994) (f_of_Z 100), rest).
Proof.
  intros bo. destruct (pair_written bo (f_of_Z 5994) 59940 (-3)) as (b & Wb & Hb);
    [vm_compute; reflexivity|lia|lia|].
  exists b. split; [exact Wb|]. intros rest. eapply holds_read; [exact Hb|]. vm_compute. reflexivity.
Qed.
Print Assumptions C04_5994_comes_back_as_59_94.

Theorem C04_out_of_range_refused : forall bo x n, f_wf x -> f_fin x -> f_real x = IZR n ->
  ~ (- 2 ^ 31 <= n < 2 ^ 31)%Z -> wexp10 bo x = Err StructError.
Proof.
  intros bo x n W F E Hn. apply (pair_refused bo x n 0); [|exact Hn].
  apply parts_whole; auto. lia.
Qed.
Print Assumptions C04_out_of_range_refused.

Theorem C04_infinite_or_nan_refused : forall bo s,
  wexp10 bo (S754_infinity s) = Err OverflowErr /\ wexp10 bo S754_nan = Err ValueErr.
Proof. intros bo s. split; reflexivity. Qed.
Print Assumptions C04_infinite_or_nan_refused.

(** 24 in both byte orders, the greatest and least values, minus zero (which comes back as
    zero), and 2^31. *)
Example C04_example :
  wexp10 LE (f_of_Z 24) = Ok [24; 0; 0; 0; 0; 0]%Z /\ wexp10 BE (f_of_Z 24) = Ok [0; 0; 0; 24; 0; 0]%Z /\
  rexp10 LE [24; 0; 0; 0; 0; 0; 7]%Z = Ok (f_of_Z 24, [7%Z]) /\
  wexp10 BE (f_of_Z 2147483647) = Ok [127; 255; 255; 255; 0; 0]%Z /\
  wexp10 BE (f_of_Z (-2147483648)) = Ok [128; 0; 0; 0; 0; 0]%Z /\
  wexp10 BE (S754_zero true) = Ok [0; 0; 0; 0; 0; 0]%Z /\
  rexp10 BE [0; 0; 0; 0; 0; 0]%Z = Ok (S754_zero false, []) /\
  wexp10 BE (f_of_Z 2147483648) = Err StructError.
Proof. vm_compute. repeat split; reflexivity. Qed.

(** ** C05 *)

(** The writer of a finite value scales at most six times: it always decides, on an
    exponent from -6 to 0, and then refuses the value exactly when the mantissa has no room. *)
Theorem C05_finite_decided : forall bo x, f_wf x -> f_fin x ->
  exists m e, (-6 <= e <= 0)%Z /\
    ((- 2 ^ 31 <= m < 2 ^ 31)%Z /\ (exists b, wexp10 bo x = Ok b /\ holds bo b m e) \/
     ~ (- 2 ^ 31 <= m < 2 ^ 31)%Z /\ wexp10 bo x = Err StructError).
Proof.
  intros bo x W F. destruct (parts_finite x W F) as (m & e & E & He). exists m, e. split; [exact He|].
  destruct (Z_le_dec (- 2 ^ 31) m); [destruct (Z_lt_dec m (2 ^ 31))|].
  - left. split; [lia|]. apply pair_written; auto; lia.
  - right. split; [lia|]. apply (pair_refused bo x m e E). lia.
  - right. split; [lia|]. apply (pair_refused bo x m e E). lia.
Qed.
Print Assumptions C05_finite_decided.

(** A magnitude below 2^31 is written. Unless a scaling came out at 5994, the stored decimal
    [m / 10^k] is the value cut to [k] decimals: it is within one unit of the last digit, give
    or take 2^-18 of such a unit for the scalings. The digits stop early only when the
    value was exhausted, or when the mantissa has no room for another digit. *)
Theorem C05_stored_to_precision : forall bo x, f_wf x -> f_fin x -> Rabs (f_real x) < IZR (2 ^ 31) ->
  exists b m k, wexp10 bo x = Ok b /\ holds bo b m (- Z.of_nat k) /\
    (- 2 ^ 31 <= m < 2 ^ 31)%Z /\ (k <= 6)%nat /\
    ((m = 59940%Z /\ k = 3%nat /\
      exists j, (j <= 6)%nat /\ Rabs (f_real x * 10 ^ j - 5994) < bpow radix2 (-18)) \/
     (Rabs (f_real x * 10 ^ k - IZR m) < 1 + bpow radix2 (-18) /\
      (k = 6%nat \/ Rabs (f_real x * 10 ^ k - IZR m) < bpow radix2 (-18) \/
       (2 ^ 31 - 12 <= 10 * Z.abs m)%Z))).
Proof.
  intros bo x W F B.
  destruct (parts_spec x W F B) as (s & k & _ & K & Ws & Fs & Bs & N & L & E).
  pose proof (near_bound _ _ _ K Bs N) as Nb.
  destruct (f_eq_Z s 5994) eqn:Q.
  - destruct (pair_written bo x _ _ E) as (b & Wb & Hb); [lia|lia|].
    exists b, 59940%Z, 3%nat. split; [exact Wb|]. split; [exact Hb|]. split; [lia|]. split; [lia|]. left.
    split; [reflexivity|]. split; [reflexivity|]. exists k. split; [exact K|].
    apply (eq_Z_real s _ Fs) in Q. rewrite Q in Nb. rewrite Rabs_minus_sym. exact Nb.
  - set (m := Ztrunc (f_real s)) in *.
    destruct (trunc_near (f_real s)) as [T1 T2]. fold m in T1, T2.
    assert (Z.abs m < 2 ^ 31)%Z as Hm.
    { apply lt_IZR. rewrite abs_IZR. lra. }
    destruct (pair_written bo x _ _ E) as (b & Wb & Hb); [lia|lia|].
    exists b, m, k. split; [exact Wb|]. split; [exact Hb|]. split; [lia|]. split; [exact K|]. right.
    rewrite Rabs_minus_sym in Nb. split.
    + replace (f_real x * 10 ^ k - IZR m) with ((f_real x * 10 ^ k - f_real s) + (f_real s - IZR m)) by ring.
      eapply Rle_lt_trans; [apply Rabs_triang|]. lra.
    + destruct L as [L|[L|L]].
      * right. left. rewrite <- L. exact Nb.
      * now left.
      * right. right.
        pose proof (rnd_error (f_real s * 10)) as Er.
        assert (Rabs (rnd (f_real s * 10)) <= Rabs (f_real s * 10) + Rabs (rnd (f_real s * 10) - f_real s * 10)) as T.
        { replace (rnd (f_real s * 10)) with (f_real s * 10 + (rnd (f_real s * 10) - f_real s * 10)) at 1 by ring.
          apply Rabs_triang. }
        rewrite Rabs_mult, (Rabs_right 10) in * by lra.
        assert (Rabs (f_real s) <= Rabs (IZR m) + Rabs (f_real s - IZR m)) as T3.
        { replace (f_real s) with (IZR m + (f_real s - IZR m)) at 1 by ring. apply Rabs_triang. }
        assert (bpow radix2 (-53) = / IZR 9007199254740992) as E53 by (apply (bpow_neg_Z (-53)); lia).
        assert (bpow radix2 (-1074) <= / IZR 9007199254740992) as E1074.
        { rewrite <- E53. apply bpow_le. lia. }
        rewrite E53 in Er. rewrite <- abs_IZR in T3.
        change (2 ^ 31 - 1)%Z with 2147483647%Z in L. change (2 ^ 31)%Z with 2147483648%Z in Bs.
        assert (IZR (2 ^ 31 - 13) < IZR (10 * Z.abs m)) as Fin.
        { rewrite mult_IZR. change (2 ^ 31 - 13)%Z with 2147483635%Z. lra. }
        apply lt_IZR in Fin. lia.
Qed.
Print Assumptions C05_stored_to_precision.

(** Reading a stored decimal gives the double nearest to it but for two roundings. *)
Theorem C05_read_to_precision : forall bo b m k, holds bo b m (- Z.of_nat k) ->
  (- 2 ^ 31 <= m < 2 ^ 31)%Z -> (k <= 6)%nat ->
  exists y, (forall rest, rexp10 bo (b ++ rest) = Ok (y, rest)) /\ f_wf y /\ f_fin y /\
    Rabs (f_real y - IZR m / 10 ^ k) <= bpow radix2 (-51) * Rabs (IZR m / 10 ^ k).
Proof.
  intros bo b m k H Hm K. destruct (value_near m k Hm K) as (y & E & W & F & R).
  exists y. split; [|auto]. intros rest. now apply (holds_read bo b m (- Z.of_nat k)).
Qed.
Print Assumptions C05_read_to_precision.

(** Rates that come back as the same double. Each is given as the double nearest to [n / d]. *)
Definition common_rates : list (Z * Z) :=
  [(12, 1); (125, 10); (14985, 1000); (15, 1); (23976, 1000); (2398, 100); (24, 1); (25, 1);
   (2997, 100); (30, 1); (4795, 100); (47952, 1000); (48, 1); (50, 1); (5994, 100); (60, 1); (71928, 1000);
   (72, 1); (8991, 100); (90, 1); (95904, 1000); (96, 1); (100, 1); (11988, 100); (120, 1);
   (32000, 1); (44100, 1); (48000, 1); (96000, 1)]%Z.

Theorem C05_common_rates_survive : forall bo n d, In (n, d) common_rates ->
  exists b, wexp10 bo (fdiv (f_of_Z n) (f_of_Z d)) = Ok b /\
    forall rest, rexp10 bo (b ++ rest) = Ok (fdiv (f_of_Z n) (f_of_Z d), rest).
Proof.
  intros bo n d H. cbn [In common_rates] in H.
  repeat (destruct H as [H|H];
    [injection H as <- <-;
     match goal with |- exists b, wexp10 bo ?x = _ /\ _ =>
       let p := eval vm_compute in (exp10_parts x) in
       match p with Ok (?m, ?e) => destruct (pair_written bo x m e) as (b & Wb & Hb);
         [vm_compute; reflexivity|lia|lia|];
         exists b; split; [exact Wb|]; intros rest; eapply holds_read; [exact Hb|]; vm_compute; reflexivity end end|]).
  destruct H.
Qed.
Print Assumptions C05_common_rates_survive.

(** A value whose scaling comes out at 5994 is not stored to precision unless it is 59.94:
    599.4 and 5.994 both come back as 59.94. *)
Theorem C05_near_5994_refuted : exists x1 x2 b1 b2,
  x1 = fdiv (f_of_Z 5994) (f_of_Z 10) /\ x2 = fdiv (f_of_Z 5994) (f_of_Z 1000) /\
  wexp10 LE x1 = Ok b1 /\ wexp10 LE x2 = Ok b2 /\
  rexp10 LE b1 = Ok (fdiv (f_of_Z 5994) (f_of_Z 100), []) /\
  rexp10 LE b2 = Ok (fdiv (f_of_Z 5994) (f_of_Z 100), []).
Proof.
  exists (fdiv (f_of_Z 5994) (f_of_Z 10)), (fdiv (f_of_Z 5994) (f_of_Z 1000)), [36; 234; 0; 0; 253; 255]%Z, [36; 234; 0; 0; 253; 255]%Z.
  split; [reflexivity|]. split; [reflexivity|]. repeat split; vm_compute; reflexivity.
Qed.
Print Assumptions C05_near_5994_refuted.

(** Not every six-digit rate survives: 24000/1001 is cut after six decimals. *)
Theorem C05_exact_rate_lost_refuted : exists x b y,
  x = fdiv (f_of_Z 24000) (f_of_Z 1001) /\ wexp10 LE x = Ok b /\ rexp10 LE b = Ok (y, []) /\
  holds LE b 23976023 (-6) /\ y <> x.
Proof.
  exists (fdiv (f_of_Z 24000) (f_of_Z 1001)), [87; 216; 109; 1; 250; 255]%Z, (S754_finite false 6748650515539152 (-48)).
  split; [reflexivity|]. split; [vm_compute; reflexivity|]. split; [vm_compute; reflexivity|].
  split; [|vm_compute; discriminate].
  intros rest. eexists. split; reflexivity.
Qed.
Print Assumptions C05_exact_rate_lost_refuted.

(** ** C51 *)

(** One save followed by a load. *)
Definition resave (x : float64) : result float64 :=
  match wexp10 LE x with
  | Err e => Err e
  | Ok b => match rexp10 LE b with Err e => Err e | Ok (y, _) => Ok y end
  end.

(** [n] saves in a row. *)
Fixpoint resaves (n : nat) (x : float64) : result float64 :=
  match n with O => Ok x | S n' => match resave x with Err e => Err e | Ok y => resaves n' y end end.

(** Whole numbers do not move at all, however often they are saved. *)
Theorem C51_whole_numbers_stay : forall n k, (- 2 ^ 31 <= n < 2 ^ 31)%Z -> n <> 5994%Z ->
  resaves k (f_of_Z n) = Ok (f_of_Z n).
Proof.
  intros n k Hn H. induction k as [|k IH]; [reflexivity|]. cbn [resaves].
  destruct (of_Z_exact n) as (W & F & R); [lia|].
  destruct (C04_whole_number_survives LE (f_of_Z n) n W F R Hn H) as (b & y & Wb & Hb & Fy & Ry & Ey).
  assert (resave (f_of_Z n) = Ok (f_of_Z n)) as ->; [|exact IH].
  unfold resave. rewrite Wb. specialize (Hb []). rewrite app_nil_r in Hb. rewrite Hb.
  destruct (Z.eq_dec n 0) as [->|N]; [|now rewrite Ey].
  vm_compute in Wb. apply (f_equal (fun r => match r with Ok b => b | Err _ => [] end)) in Wb. cbn beta iota in Wb.
  subst b. vm_compute in Hb. inversion Hb. reflexivity.
Qed.
Print Assumptions C51_whole_numbers_stay.

(** A save moves any other value below 2^31 by less than a unit of the last digit kept, so
    by less than [1 / 10^k] where [k] is the number of decimals stored. *)
Theorem C51_one_save_moves_little : forall x, f_wf x -> f_fin x -> Rabs (f_real x) < IZR (2 ^ 31) ->
  (forall j, (j <= 6)%nat -> bpow radix2 (-18) <= Rabs (f_real x * 10 ^ j - 5994)) ->
  exists y k, resave x = Ok y /\ f_wf y /\ f_fin y /\ (k <= 6)%nat /\
    Rabs (f_real y - f_real x) < (1 + bpow radix2 (-17)) / 10 ^ k.
Proof.
  intros x W F B NP.
  destruct (C05_stored_to_precision LE x W F B) as (b & m & k & Wb & Hb & Hm & K & [C|[C _]]).
  { destruct C as (_ & _ & j & J & Q). specialize (NP j J). lra. }
  destruct (C05_read_to_precision LE b m k Hb Hm K) as (y & Hy & Wy & Fy & Ry).
  exists y, k. unfold resave. rewrite Wb. specialize (Hy []). rewrite app_nil_r in Hy. rewrite Hy.
  split; [reflexivity|]. split; [exact Wy|]. split; [exact Fy|]. split; [exact K|].
  assert (0 < 10 ^ k) as P by (apply pow_lt; lra).
  assert (f_real x - IZR m / 10 ^ k = (f_real x * 10 ^ k - IZR m) / 10 ^ k) as E by (field; lra).
  replace (f_real y - f_real x) with ((f_real y - IZR m / 10 ^ k) - (f_real x - IZR m / 10 ^ k)) by ring.
  eapply Rle_lt_trans; [unfold Rminus at 1; apply Rabs_triang|]. rewrite Rabs_Ropp, E.
  unfold Rdiv in *. rewrite !Rabs_mult in *. rewrite (Rabs_right (/ 10 ^ k)) in *
    by (apply Rle_ge; left; now apply Rinv_0_lt_compat).
  assert (0 < / 10 ^ k) as P' by now apply Rinv_0_lt_compat.
  set (t := / 10 ^ k) in *.
  assert (Rabs (IZR m) <= IZR (2 ^ 31)) as Bm by (rewrite <- abs_IZR; apply IZR_le; lia).
  assert (bpow radix2 (-51) = / IZR 2251799813685248) as E51 by (apply (bpow_neg_Z (-51)); lia).
  assert (bpow radix2 (-18) = / IZR 262144) as E18 by (apply (bpow_neg_Z (-18)); lia).
  assert (bpow radix2 (-17) = / IZR 131072) as E17 by (apply (bpow_neg_Z (-17)); lia).
  rewrite E51, E18, E17 in *. change (2 ^ 31)%Z with 2147483648%Z in Bm.
  assert (/ 2251799813685248 * (Rabs (IZR m) * t) <= / 2251799813685248 * (2147483648 * t)) as Z1.
  { apply Rmult_le_compat_l; [lra|]. apply Rmult_le_compat_r; lra. }
  assert (Rabs (f_real x * 10 ^ k - IZR m) * t < (1 + / 262144) * t) as Z2.
  { apply Rmult_lt_compat_r; lra. }
  assert (/ 2251799813685248 * (2147483648 * t) <= / 1000000 * t) as Z3 by lra.
  lra.
Qed.
Print Assumptions C51_one_save_moves_little.

(** The moves can add up: from 0.126763 each of three saves stores a millionth less than
    the one before, and then the value goes back and forth between two doubles for ever. *)
Theorem C51_drift_refuted : exists x y1 y2 a b, x = fdiv (f_of_Z 126763) (f_of_Z 1000000) /\
  resave x = Ok y1 /\ resave y1 = Ok y2 /\ resave y2 = Ok a /\ resave a = Ok b /\ resave b = Ok a /\ a <> b /\
  (exists b0 b1 b2, wexp10 LE x = Ok b0 /\ rs32 LE b0 = Ok (126762, [250; 255])%Z /\
     wexp10 LE y1 = Ok b1 /\ rs32 LE b1 = Ok (126761, [250; 255])%Z /\
     wexp10 LE y2 = Ok b2 /\ rs32 LE b2 = Ok (126760, [250; 255])%Z) /\
  forall n, resaves (3 + 2 * n) x = Ok a /\ resaves (4 + 2 * n) x = Ok b.
Proof.
  assert (forall f f' a b, resave a = Ok b -> resave b = Ok a -> f = 2 * f' -> resaves f a = Ok a)%nat as Loop.
  { intros f f' a b A B. revert f. induction f' as [|f' IH]; intros f Q; [now subst|].
    replace f with (S (S (2 * f'))) by lia. cbn [resaves]. rewrite A, B. now apply IH. }
  pose (x := fdiv (f_of_Z 126763) (f_of_Z 1000000)).
  pose (y1 := S754_finite false 4567082367717910 (-55)). pose (y2 := S754_finite false 4567046338920891 (-55)).
  pose (a := S754_finite false 4567010310123872 (-55)). pose (b := S754_finite false 4567010310123873 (-55)).
  assert (resave x = Ok y1) as E1 by (vm_compute; reflexivity).
  assert (resave y1 = Ok y2) as E2 by (vm_compute; reflexivity).
  assert (resave y2 = Ok a) as E3 by (vm_compute; reflexivity).
  assert (resave a = Ok b) as E4 by (vm_compute; reflexivity).
  assert (resave b = Ok a) as E5 by (vm_compute; reflexivity).
  exists x, y1, y2, a, b. split; [reflexivity|].
  do 5 (split; [assumption|]). split; [discriminate|]. split.
  { exists [42; 239; 1; 0; 250; 255]%Z, [41; 239; 1; 0; 250; 255]%Z, [40; 239; 1; 0; 250; 255]%Z.
    repeat split; vm_compute; reflexivity. }
  intros n. split.
  - replace (3 + 2 * n)%nat with (S (S (S (2 * n)))) by lia. cbn [resaves]. rewrite E1, E2, E3.
    now apply (Loop _ n a b).
  - replace (4 + 2 * n)%nat with (S (S (S (S (2 * n))))) by lia. cbn [resaves]. rewrite E1, E2, E3, E4.
    now apply (Loop _ n b a).
Qed.
Print Assumptions C51_drift_refuted.
