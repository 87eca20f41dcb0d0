(** Model of the timeline arithmetic of src/avb/components.py: lengths, positions and lookups of
    sequences, and keyframe curves with src/avb/interpolation.py. *)
From Coq Require Import ZArith List Bool.
From Coq.Floats Require Import SpecFloat.
From Verif Require Import Base IoCtx Exp10 Components.
Import ListNotations.
Open Scope Z_scope.

(** ** Sequences *)

(** What the functions of [Sequence] ask of a component: whether its [class_id] is [b'TNFX'] and
    its [length] (components.py:183-188). *)
Record item := { it_trans : bool; it_len : Z }.

(** components.py:181-189 [Sequence.length], the loop with the running value [length]. *)
Fixpoint length_from (acc : Z) (l : list item) : Z :=
  match l with
  | [] => acc
  | c :: l' => length_from (if it_trans c then acc - it_len c else acc + it_len c) l'
  end.

(** components.py:181-189. *)
Definition seq_length (l : list item) : Z := length_from 0 l.

(** components.py:223-232 [Sequence.positions]: index, position and component, from index [i] and
    the running value [acc] on. *)
Fixpoint positions_from (i acc : Z) (l : list item) : list (Z * Z * item) :=
  match l with
  | [] => []
  | c :: l' =>
    if it_trans c then (i, acc - it_len c, c) :: positions_from (i + 1) (acc - it_len c) l'
    else (i, acc, c) :: positions_from (i + 1) (acc + it_len c) l'
  end.

(** components.py:223-232. *)
Definition positions (l : list item) : list (Z * Z * item) := positions_from 0 0 l.

(** components.py:203-221, the loop. [seen] says whether [last_component] is set. *)
Fixpoint nearest_loop (t : Z) (l : list (Z * Z * item)) (seen : bool) (last_index last_pos : Z) : Z * Z :=
  match l with
  | [] => (last_index, last_pos)
  | (i, pos, c) :: l' =>
    if it_len c =? 0 then nearest_loop t l' seen last_index last_pos
    else if it_trans c && ((pos <=? t) && (t <? pos + it_len c)) then (i, pos)
    else if seen && (pos >=? t) then (last_index, last_pos)
    else nearest_loop t l' true i pos
  end.

(** components.py:196-221 [Sequence.nearest_index_at_time]. *)
Definition nearest_index_at_time (l : list item) (t : Z) : Z * Z :=
  nearest_loop t (positions l) false 0 0.

(** components.py:191-194 [Sequence.nearest_component_at_time]. *)
Definition nearest_component_at_time (l : list item) (t : Z) : result (item * Z) :=
  let '(i, pos) := nearest_index_at_time l t in
  match nth_error l (Z.to_nat i) with Some c => Ok (c, pos) | None => Err IndexErr end.

(** ** Floats: the operations of Python's [float] (IEEE binary64) that the curves use. *)

(** [a + b]. CPython, not repository code (for components.py:685-828). *)
Definition fadd (a b : float64) : float64 := SFadd prec64 emax64 a b.
(** [a - b]. CPython, not repository code (for components.py:685-828). *)
Definition fsub (a b : float64) : float64 := SFsub prec64 emax64 a b.
(** [a / b] for [b] other than zero; the division by zero is tested where it can occur (for
    components.py:685-828). *)
Definition fdiv (a b : float64) : float64 := SFdiv prec64 emax64 a b.
(** [a < b]. CPython, not repository code (for components.py:685-828). *)
Definition fltb (a b : float64) : bool := SFltb a b.
(** [a == 0.0]. CPython, not repository code (for components.py:685-828). *)
Definition f_is_zero (a : float64) : bool := match a with S754_zero _ => true | _ => false end.

(** The double with a given 64-bit pattern: what [struct.unpack("<d")] makes of it
    (ioctx.py:380-382). *)
Definition f_of_bits (b : Z) : float64 :=
  let s := 1 <=? b / 2 ^ 63 in
  let e := b / 2 ^ 52 mod 2 ^ 11 in
  let m := b mod 2 ^ 52 in
  if e =? 0 then
    match m with Zpos p => S754_finite s p (-1074) | _ => S754_zero s end
  else if e =? 2047 then (if m =? 0 then S754_infinity s else S754_nan)
  else S754_finite s (Z.to_pos (m + 2 ^ 52)) (e - 1075).

(** ** Keyframes *)

(** components.py:479-490 [ParamControlPoint.time]: [num / den * self.timescale]. *)
Definition pcp_time (p : param_control_point) : result float64 :=
  if pcp_offset_den p =? 0 then Err ValueErr
  else if pcp_timescale p =? 0 then Err ValueErr
  else Ok (fmul (fdiv (f_of_Z (pcp_offset_num p)) (f_of_Z (pcp_offset_den p))) (f_of_Z (pcp_timescale p))).

(** [float(p.value)]: a reference is an object, of which there is no float (for
    components.py:685-828). *)
Definition cp_float (v : cp_value) : result float64 :=
  match v with
  | CPInt n => Ok (f_of_Z n)
  | CPDouble b => Ok (f_of_bits b)
  | CPRef _ => Err TypeErr
  end.

(** components.py:692-705, the binary search. Fuel: [end - start] falls in each round. *)
Fixpoint search (fuel : nat) (l : list param_control_point) (t : float64) (lo hi : Z) : result Z :=
  match fuel with
  | O => Err OutOfFuel
  | S fuel' =>
    if hi <? lo then Ok (Z.max 0 hi)
    else
      let m := (lo + hi) / 2 in
      match nth_error l (Z.to_nat m) with
      | None => Err IndexErr
      | Some p =>
        match pcp_time p with
        | Err e => Err e
        | Ok pt =>
          if fltb pt t then search fuel' l t (m + 1) hi
          else if fltb t pt then search fuel' l t lo (m - 1)
          else Ok m
        end
      end
  end.

(** components.py:685-705 [ParamClip.nearest_index]. *)
Definition nearest_index (l : list param_control_point) (t : float64) : result Z :=
  match l with
  | [] => Err ValueErr
  | _ => search (S (length l)) l t 0 (len l - 1)
  end.

(** interpolation.py:12-13 [lerp]. *)
Definition lerp (a b t : float64) : float64 := fadd a (fmul (fsub b a) t).

(** components.py:726-733, the linear case. [t_len] is zero when the two times are equal. *)
Definition linear_value (t t1 v1 t2 v2 : float64) : result float64 :=
  let t_len := fsub t2 t1 in
  let t_diff := fsub t t1 in
  if f_is_zero t_len then Err ZeroDivisionErr else Ok (lerp v1 v2 (fdiv t_diff t_len)).

(** components.py:708-785 [ParamClip.value_at]. The Bezier and cubic cases (interpolation.py:15-272)
    go through the C library's [acos], [cos] and [pow]; they are the parameter [smooth], which gets
    the curve, the index and the time. *)
Definition value_at (smooth : list param_control_point -> Z -> float64 -> result float64)
  (kind : Z) (l : list param_control_point) (t : float64) : result float64 :=
  match nearest_index l t with
  | Err e => Err e
  | Ok i =>
    match nth_error l (Z.to_nat i) with
    | None => Err IndexErr
    | Some p1 =>
      match pcp_time p1 with
      | Err e => Err e
      | Ok t1 =>
        if fltb t t1 || (len l <=? i + 1) then cp_float (pcp_value p1)
        else if kind =? 2 then cp_float (pcp_value p1)
        else
          match nth_error l (Z.to_nat (i + 1)) with
          | None => Err IndexErr
          | Some p2 =>
            if kind =? 3 then
              match pcp_time p2 with
              | Err e => Err e
              | Ok t2 =>
                if f_is_zero (fsub t2 t1) then Err ZeroDivisionErr
                else
                  match cp_float (pcp_value p1) with
                  | Err e => Err e
                  | Ok v1 =>
                    match cp_float (pcp_value p2) with
                    | Err e => Err e
                    | Ok v2 => linear_value t t1 v1 t2 v2
                    end
                  end
              end
            else if (kind =? 5) || (kind =? 6) then smooth l i t
            else Err NotImplementedErr
          end
      end
    end
  end.

(** ** Integration *)

(** The numbers the integration computes with. The code's are floats ([ieee] below); the same
    computation without rounding is the same model over rationals (for components.py:685-828). *)
Record arith := {
  num : Type;
  n_of_Z : Z -> num;
  n_half : num;
  n_add : num -> num -> num;
  n_sub : num -> num -> num;
  n_mul : num -> num -> num;
  n_div : num -> num -> num;
  n_ltb : num -> num -> bool;
  n_eqb : num -> num -> bool }.

(** Python's floats (for components.py:685-828). *)
Definition ieee : arith := {|
  num := float64; n_of_Z := f_of_Z; n_half := S754_finite false 4503599627370496 (-53);
  n_add := fadd; n_sub := fsub; n_mul := fmul; n_div := fdiv;
  n_ltb := fltb; n_eqb := SFeqb |}.

Section Integration.
Context (A : arith) (f : num A -> result (num A)).

(** interpolation.py:281-286, the loop: [i] and [pv] of the current round. *)
Fixpoint trapezoid_loop (n : nat) (i : Z) (a h pv acc : num A) : result (num A) :=
  match n with
  | O => Ok acc
  | S n' =>
    match f (n_add A a (n_mul A (n_of_Z A i) h)) with
    | Err e => Err e
    | Ok v =>
      trapezoid_loop n' (i + 1) a h v (n_add A acc (n_mul A (n_mul A (n_add A v pv) h) (n_half A)))
    end
  end.

(** interpolation.py:276-287 [mc_trapezoidal_integrate] with [n = 5]. *)
Definition mc_trapezoidal_integrate (a b : num A) : result (num A) :=
  let h := n_div A (n_sub A b a) (n_of_Z A 5) in
  match f (n_sub A a h) with
  | Err e => Err e
  | Ok pv => trapezoid_loop 5 0 a h pv (n_of_Z A 0)
  end.

(** [pos += mc_trapezoidal_integrate(value_at_func, t-0.5, t)] (interpolation.py:294, 297, 301). *)
Definition step (pos t : num A) : result (num A) :=
  match mc_trapezoidal_integrate (n_sub A t (n_half A)) t with
  | Err e => Err e
  | Ok x => Ok (n_add A pos x)
  end.

(** interpolation.py:292-302: the rounds [i], [i + 1], ... [n] of them, then the last half step
    from [t], the last value of the loop variable. *)
Fixpoint iter_loop (n : nat) (i : Z) (t pos : num A) : result (list (num A * num A)) :=
  match n with
  | O =>
    let t := n_add A t (n_half A) in
    match step pos t with Err e => Err e | Ok p => Ok [(t, p)] end
  | S n' =>
    let t0 := n_of_Z A i in
    match step pos t0 with
    | Err e => Err e
    | Ok p0 =>
      let t1 := n_add A t0 (n_half A) in
      match step p0 t1 with
      | Err e => Err e
      | Ok p1 =>
        match iter_loop n' (i + 1) t1 p1 with
        | Err e => Err e
        | Ok l => Ok ((t0, p0) :: (t1, p1) :: l)
        end
      end
    end
  end.

(** interpolation.py:289-302 [integrate_iter], run to its end. With an empty range the variable [t]
    has no value at line 300 ([UnboundLocalError]). *)
Definition integrate_iter (start stop : Z) : result (list (num A * num A)) :=
  if stop - 1 <=? start then Err NameErr
  else iter_loop (Z.to_nat (stop - 1 - start)) start (n_of_Z A 0) (n_of_Z A 0).

(** components.py:808-813: the value at the last time equal to [center]. *)
Fixpoint offset_at (center : Z) (l : list (num A * num A)) (found : option (num A)) : option (num A) :=
  match l with
  | [] => found
  | (t, v) :: l' => offset_at center l' (if n_eqb A t (n_of_Z A center) then Some v else found)
  end.

(** components.py:820-828, the loop. *)
Fixpoint pick (start stop : Z) (offset : num A) (l : list (num A * num A)) : list (num A * num A) :=
  match l with
  | [] => []
  | (t, v) :: l' =>
    if n_ltb A (n_of_Z A stop) t then []
    else if n_ltb A t (n_of_Z A start) then pick start stop offset l'
    else (t, n_sub A v offset) :: pick start stop offset l'
  end.

(** components.py:787-828 [ParamClip.integrate] after [center] and [end] are known; [base] is
    [first.base_frame]. Comparisons of floats with integers are exact in Python; here the integer
    is converted first, which is the same up to 2^53. *)
Definition integrate_range (center : Z) (base : num A) (start stop : Z) : result (list (num A * num A)) :=
  if stop <? start then Err ValueErr
  else
    match integrate_iter (Z.min start center) (Z.max center (stop + 1)) with
    | Err e => Err e
    | Ok l =>
      match offset_at center l None with
      | None => Err TypeErr
      | Some x => Ok (pick start stop (n_sub A x base) l)
      end
    end.
End Integration.

(** components.py:501-506 [base_frame]: the first property with code 14, or 0. *)
Fixpoint base_frame (l : list param_point_property) : result float64 :=
  match l with
  | [] => Ok (f_of_Z 0)
  | p :: l' => if ppp_code p =? 14 then cp_float (ppp_value p) else base_frame l'
  end.

(** components.py:787-828 [ParamClip.integrate]. *)
Definition integrate smooth (kind : Z) (l : list param_control_point) (start : Z) (stop : option Z)
  : result (list (float64 * float64)) :=
  match l with
  | [] => Err IndexErr
  | first :: _ =>
    match pcp_time first with
    | Err e => Err e
    | Ok t1 =>
      match f_trunc t1 with
      | Err e => Err e
      | Ok center =>
        let stop' :=
          match stop with
          | Some e => Ok e
          | None => match pcp_time (last l first) with Err e => Err e | Ok t2 => f_trunc t2 end
          end in
        match stop' with
        | Err e => Err e
        | Ok e =>
          match base_frame (pcp_pp first) with
          | Err x => Err x
          | Ok base => integrate_range ieee (value_at smooth kind l) center base start e
          end
        end
      end
    end
  end.
