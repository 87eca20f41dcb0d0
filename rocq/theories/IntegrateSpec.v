(** What the properties of integration say, apart from the code of Timeline.v. *)
From Coq Require Import ZArith List Bool QArith Qcanon.
From Coq.Floats Require Import SpecFloat.
From Verif Require Import Base Exp10 Components Timeline.
Import ListNotations.
Open Scope Z_scope.

(** The same computation without rounding: rational numbers. *)
Definition qz (n : Z) : Qc := Q2Qc (inject_Z n).
Definition rational : arith := {|
  num := Qc; n_of_Z := qz; n_half := Qcdiv (qz 1) (qz 2);
  n_add := Qcplus; n_sub := Qcminus; n_mul := Qcmult; n_div := Qcdiv;
  n_ltb := fun x y => if Qclt_le_dec x y then true else false;
  n_eqb := fun x y => if Qc_eq_dec x y then true else false |}.

(** The time of half frame [k]. *)
Definition half_frame (k : Z) : float64 :=
  if Z.even k then f_of_Z (k / 2) else fadd (f_of_Z (k / 2)) (fdiv (f_of_Z 1) (f_of_Z 2)).
Definition q_half_frame (k : Z) : Qc := Qcdiv (qz k) (qz 2).

(** Five trapezoids over [a - h .. a + 4 h], where [h] is a fifth of [b - a]. *)
Definition five_trapezoids (f : Qc -> Qc) (a b : Qc) : Qc :=
  (let h := (b - a) / qz 5 in
   h / qz 2 * (f (a - h) + qz 2 * f a + qz 2 * f (a + h) + qz 2 * f (a + qz 2 * h) + qz 2 * f (a + qz 3 * h)
               + f (a + qz 4 * h)))%Qc.

(** The same with doubles, in the order in which the terms are added. *)
Definition float_trapezoids (f : float64 -> result float64) (a b s : float64) : Prop :=
  let h := fdiv (fsub b a) (f_of_Z 5) in
  let at_ n := fadd a (fmul (f_of_Z n) h) in
  let area v u := fmul (fmul (fadd v u) h) (fdiv (f_of_Z 1) (f_of_Z 2)) in
  exists v0 v1 v2 v3 v4 v5,
    f (fsub a h) = Ok v0 /\ f (at_ 0) = Ok v1 /\ f (at_ 1) = Ok v2 /\ f (at_ 2) = Ok v3 /\ f (at_ 3) = Ok v4 /\
    f (at_ 4) = Ok v5 /\
    s = fadd (fadd (fadd (fadd (fadd (f_of_Z 0) (area v1 v0)) (area v2 v1)) (area v3 v2)) (area v4 v3)) (area v5 v4).

(** The base frame of a keyframe: its first property with code 14 (PP_BASE_FRAME_U), or 0. *)
Definition has_base (l : list param_point_property) (b : float64) : Prop :=
  (exists pre q post, l = pre ++ q :: post /\ (forall x, In x pre -> ppp_code x <> 14) /\ ppp_code q = 14 /\
     cp_float (ppp_value q) = Ok b) \/
  ((forall x, In x l -> ppp_code x <> 14) /\ b = f_of_Z 0).

(** The first keyframe's frame and base. *)
Definition zero_point (l : list param_control_point) (center : Z) (base : float64) : Prop :=
  exists p rest t, l = p :: rest /\ pcp_time p = Ok t /\ f_trunc t = Ok center /\ has_base (pcp_pp p) base.
