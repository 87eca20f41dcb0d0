(** Facts about the calendar of Dates.v. *)
From Coq Require Import ZArith List Bool Lia Zwf.
From Verif Require Import Base Text Dates DateSpec.
Import ListNotations.
Open Scope Z_scope.

Definition era_date (doe : Z) : Z * Z * Z :=
  let yoe := (doe - doe / 1460 + doe / 36524 - doe / 146096) / 365 in
  let doy := doe - (365 * yoe + yoe / 4 - yoe / 100) in
  let mp := (5 * doy + 2) / 153 in
  let d := doy - (153 * mp + 2) / 5 + 1 in
  let m := if mp <? 10 then mp + 3 else mp - 9 in
  (yoe + (if m <=? 2 then 1 else 0), m, d).

Definition later (k : Z) (d : Z * Z * Z) : Z * Z * Z := let '(y, m, day) := d in (y + 400 * k, m, day).

Lemma civil_era : forall n, civil n = later ((n + 719468) / 146097) (era_date ((n + 719468) mod 146097)).
Proof. intros n. unfold civil, era_date, later. cbv zeta. f_equal. f_equal. lia. Qed.

Lemma leap_later : forall y k, leap (y + 400 * k) = leap y.
Proof.
  intros y k. unfold leap.
  replace (y + 400 * k) with (y + k * 400) by lia. rewrite Z.mod_add by lia.
  replace (y + k * 400) with (y + (4 * k) * 100) by lia. rewrite Z.mod_add by lia.
  replace (y + 4 * k * 100) with (y + (100 * k) * 4) by lia. rewrite Z.mod_add by lia. reflexivity.
Qed.

Lemma tomorrow_later : forall k d, tomorrow (later k d) = later k (tomorrow d).
Proof.
  intros k [[y m] day]. unfold tomorrow, later, month_days. rewrite leap_later.
  destruct (day <? _); [reflexivity|]. destruct (m <? 12); [reflexivity|]. f_equal. f_equal. lia.
Qed.

Lemma later_later : forall j k d, later j (later k d) = later (k + j) d.
Proof. intros j k [[y m] day]. unfold later. f_equal. f_equal. lia. Qed.

Definition date_eqb (a b : Z * Z * Z) : bool :=
  let '(y, m, d) := a in let '(y', m', d') := b in (y =? y') && (m =? m') && (d =? d').

Lemma date_eqb_eq : forall a b, date_eqb a b = true -> a = b.
Proof.
  intros [[y m] d] [[y' m'] d'] H. unfold date_eqb in H. apply andb_prop in H as [H H3]. apply andb_prop in H as [H1 H2].
  apply Z.eqb_eq in H1, H2, H3. congruence.
Qed.

(** [P] holds of the [n] numbers from [i] on. *)
Fixpoint run (P : Z -> bool) (n : nat) (i : Z) : bool :=
  match n with O => true | S n' => if P i then run P n' (i + 1) else false end.

Lemma run_all : forall P n i, run P n i = true -> forall j, i <= j < i + Z.of_nat n -> P j = true.
Proof.
  induction n as [|n IH]; intros i H j Hj; [lia|]. cbn [run] in H. destruct (P i) eqn:E; [|discriminate].
  destruct (Z.eq_dec j i) as [->|N]; [exact E|]. apply (IH (i + 1) H). lia.
Qed.

Lemma era_steps : run (fun i => date_eqb (era_date (i + 1)) (tomorrow (era_date i))) (Z.to_nat 146096) 0 = true.
Proof. vm_compute. reflexivity. Qed.

Lemma era_step : forall i, 0 <= i < 146096 -> era_date (i + 1) = tomorrow (era_date i).
Proof.
  intros i H. apply date_eqb_eq. apply (run_all _ _ _ era_steps). rewrite Z2Nat.id by lia. lia.
Qed.

Lemma era_end : tomorrow (era_date 146096) = later 1 (era_date 0).
Proof. reflexivity. Qed.

Lemma civil_calendar : calendar civil.
Proof.
  split; [reflexivity|]. intros n. rewrite !civil_era. set (z := n + 719468). replace (n + 1 + 719468) with (z + 1) by (unfold z; lia).
  clearbody z. rewrite tomorrow_later.
  pose proof (Z.mod_pos_bound z 146097). pose proof (Z.div_mod z 146097).
  destruct (Z.eq_dec (z mod 146097) 146096) as [E|N].
  - rewrite E, era_end, later_later.
    rewrite <- (Z.div_unique (z + 1) 146097 (z / 146097 + 1) 0) by lia.
    rewrite <- (Z.mod_unique (z + 1) 146097 (z / 146097 + 1) 0) by lia. f_equal. lia.
  - rewrite <- era_step by lia.
    rewrite <- (Z.div_unique (z + 1) 146097 (z / 146097) (z mod 146097 + 1)) by lia.
    rewrite <- (Z.mod_unique (z + 1) 146097 (z / 146097) (z mod 146097 + 1)) by lia. reflexivity.
Qed.

(** Only one calendar goes through the days from day 0 on. *)
Lemma calendar_unique : forall c n, calendar c -> 0 <= n -> c n = civil n.
Proof.
  intros c n [C0 CS] H. revert n H. apply natlike_ind.
  - rewrite C0. symmetry. apply civil_calendar.
  - intros n H IH. unfold Z.succ. rewrite CS, IH. symmetry. apply civil_calendar.
Qed.

Lemma digits_length : forall n v, length (digits n v) = n.
Proof. induction n as [|n IH]; intros v; cbn [digits]; [reflexivity|]. rewrite app_length, IH. cbn. lia. Qed.

Lemma number_app : forall a b acc, number acc (a ++ b) = number (number acc a) b.
Proof. induction a as [|c a IH]; intros b acc; cbn [number app]; [reflexivity|apply IH]. Qed.

Lemma number_digits : forall n v, 0 <= v < 10 ^ Z.of_nat n -> number 0 (digits n v) = v.
Proof.
  induction n as [|n IH]; intros v H.
  - cbn [digits number]. change (10 ^ Z.of_nat 0) with 1 in H. lia.
  - cbn [digits]. rewrite number_app, IH.
    + cbn [number]. pose proof (Z.div_mod v 10). lia.
    + rewrite Nat2Z.inj_succ, Z.pow_succ_r in H by lia. split; [apply Z.div_pos; lia|]. apply Z.div_lt_upper_bound; lia.
Qed.

Lemma civil_range : forall n y m day, 0 <= n -> civil n = (y, m, day) -> 1970 <= y /\ 1 <= m <= 12 /\ 1 <= day <= 31.
Proof.
  assert (forall n, 0 <= n -> let '(y, m, day) := civil n in 1970 <= y /\ 1 <= m <= 12 /\ 1 <= day <= 31) as A.
  - apply natlike_ind.
    + change (civil 0) with (1970, 1, 1). cbv iota beta. lia.
    + intros n H IH. unfold Z.succ. rewrite (proj2 civil_calendar). destruct (civil n) as [[y m] day].
      assert (month_days y m <= 31) by (unfold month_days; repeat match goal with |- context [if ?c then _ else _] => destruct c end; lia).
      unfold tomorrow. destruct (Z.ltb_spec day (month_days y m)); [lia|]. destruct (Z.ltb_spec m 12); lia.
  - intros n y m day H E. specialize (A n H). now rewrite E in A.
Qed.
