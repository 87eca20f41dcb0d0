(** Model of src/avb/interpolation.py:10-274 and of the Bezier and cubic cases of
    [ParamClip.value_at], components.py:708-785.
    Simplified: the floats of the code are real numbers here, so that nothing is rounded and nothing
    overflows. Exceptions are kept: division by zero, [math.sqrt] of a negative number, the failed
    assertion and the undefined name. interpolation.py:187-211 [bezier_interpolate_old] is not called
    by anything and is left out. *)
From Coq Require Import ZArith Reals List Bool.
From Verif Require Import Base.
Import ListNotations.
Open Scope R_scope.

(** A point: time and value, as interpolation.py:147-148. *)
Definition point : Type := (R * R)%type.

(** interpolation.py:10 [EPSILON]. *)
Definition EPSILON : R := / 10 ^ 10.

(** The comparison [a < b], as interpolation.py:28. *)
Definition ltb (a b : R) : bool := if Rlt_dec a b then true else false.
(** The comparison [a <= b], as interpolation.py:25. *)
Definition leb (a b : R) : bool := if Rle_dec a b then true else false.
(** The comparison [a == b], as interpolation.py:109. *)
Definition eqb (a b : R) : bool := if Req_EM_T a b then true else false.

(** [a / b], as interpolation.py:147. *)
Definition pdiv (a b : R) : result R := if eqb b 0 then Err ZeroDivisionErr else Ok (a / b).

(** [math.sqrt(x)], as interpolation.py:59. *)
Definition psqrt (x : R) : result R := if ltb x 0 then Err ValueErr else Ok (sqrt x).

(** [x**(1/3)] for [x >= 0], as interpolation.py:30 and 32. *)
Definition third_power (x : R) : R := if eqb x 0 then 0 else Rpower x (1 / 3).

(** interpolation.py:15-21 [cubic_bezier]. *)
Definition cubic_bezier (p0 p1 p2 p3 t : R) : R :=
  let u := 1 - t in
  let w1 := u * u * u in
  let w2 := 3 * u * u * t in
  let w3 := 3 * u * t * t in
  let w4 := t * t * t in
  w1 * p0 + w2 * p1 + w3 * p2 + w4 * p3.

(** interpolation.py:23-25 [valid_root]. *)
Definition valid_root (v : R) : bool := leb (- EPSILON) v && leb v (1 + EPSILON).

(** interpolation.py:27-33 [cube_root]. *)
Definition cube_root (x : R) : R :=
  if ltb x 0 then third_power (Rabs x) * (-1) else third_power x.

(** interpolation.py:37-134 [bezier_cubic_roots]. *)
Definition bezier_cubic_roots (pa pb pc pd : R) : result (list R) :=
  let a := 3 * pa - 6 * pb + 3 * pc in
  let b := -3 * pa + 3 * pb in
  let c := pa in
  let d := - pa + 3 * pb - 3 * pc + pd in
  if ltb (Rabs d) EPSILON then
    if ltb (Rabs a) EPSILON then
      if ltb (Rabs b) EPSILON then Ok []
      else rbind (pdiv (- c) b) (fun r => Ok (filter valid_root [r]))
    else
      rbind (psqrt (b * b - 4 * a * c)) (fun q =>
      let a2 := 2 * a in
      rbind (pdiv (q - b) a2) (fun r1 =>
      rbind (pdiv (- b - q) a2) (fun r2 => Ok (filter valid_root [r1; r2]))))
  else
    rbind (pdiv a d) (fun a =>
    rbind (pdiv b d) (fun b =>
    rbind (pdiv c d) (fun c =>
    let p := (3 * b - a * a) / 3 in
    let p3 := p / 3 in
    let q := (2 * a * a * a - 9 * a * b + 27 * c) / 27 in
    let q2 := q / 2 in
    let discriminant := q2 * q2 + p3 * p3 * p3 in
    if ltb discriminant 0 then
      let mp3 := - p / 3 in
      let mp33 := mp3 * mp3 * mp3 in
      rbind (psqrt mp33) (fun r =>
      rbind (pdiv (- q) (2 * r)) (fun t =>
      let cosphi := Rmax (-1) (Rmin 1 t) in
      let phi := acos cosphi in
      let crtr := cube_root r in
      let t1 := 2 * crtr in
      Ok (filter valid_root
        [t1 * cos (phi / 3) - a / 3;
         t1 * cos ((phi + 2 * PI) / 3) - a / 3;
         t1 * cos ((phi + 4 * PI) / 3) - a / 3])))
    else if eqb discriminant 0 then
      let u1 := if ltb q2 0 then cube_root (- q2) else - cube_root q2 in
      Ok (filter valid_root [2 * u1 - a / 3; - u1 - a / 3])
    else
      rbind (psqrt discriminant) (fun sd =>
      let u1 := cube_root (sd - q2) in
      let v1 := cube_root (sd + q2) in
      Ok (filter valid_root [u1 - v1 - a / 3]))))).

(** interpolation.py:136-148 [scale_handle]. *)
Definition scale_handle (p0 p1 p2 : point) : result point :=
  rbind (pdiv ((snd p1 - snd p0) * (fst p2 - fst p0)) (fst p1 - fst p0)) (fun y =>
  Ok (fst p2, snd p0 + y)).

(** interpolation.py:157-162, the first handle. *)
Definition first_handle (p0 p1 p3 : point) : result point :=
  if ltb (fst p3) (fst p1) then scale_handle p0 p1 p3
  else if ltb (fst p1) (fst p0) then Ok (fst p0, snd p1)
  else Ok p1.

(** interpolation.py:164-169, the second handle. *)
Definition second_handle (p0 p2 p3 : point) : result point :=
  if ltb (fst p2) (fst p0) then scale_handle p3 p2 p0
  else if ltb (fst p3) (fst p2) then Ok (fst p3, snd p2)
  else Ok p2.

(** interpolation.py:150-185 [bezier_interpolate]; [p] of line 155 is not defined. *)
Definition bezier_interpolate (p0 p1 p2 p3 : point) (x : R) : result R :=
  if leb (fst p3) (fst p0) then Err NameErr
  else
    rbind (first_handle p0 p1 p3) (fun p1 =>
    rbind (second_handle p0 p2 p3) (fun p2 =>
    rbind (bezier_cubic_roots (fst p0 - x) (fst p1 - x) (fst p2 - x) (fst p3 - x)) (fun roots =>
    match roots with
    | [] => Err AssertionErr
    | r :: _ => Ok (cubic_bezier (snd p0) (snd p1) (snd p2) (snd p3) (Rmin 1 (Rmax 0 r)))
    end))).

(** interpolation.py:213-216 [sign_no_zero]. *)
Definition sign_no_zero (v : R) : Z := if leb 0 v then 1%Z else (-1)%Z.

(** interpolation.py:218-262 [calculate_tangent]. *)
Definition calculate_tangent (p0 p1 p2 : point) (in_tangent : bool) : result point :=
  let '(x, y) := p1 in
  let '(px, py) := p0 in
  let '(nx, ny) := p2 in
  let tan_x := if in_tangent then 4 / 10 * (x - px) else 4 / 10 * (nx - x) in
  rbind (pdiv (ny - py) (nx - px)) (fun slope =>
  rbind (pdiv (y - py) (x - px)) (fun prev_slope =>
  rbind (pdiv (ny - y) (nx - x)) (fun next_slope =>
  let flat := negb (sign_no_zero prev_slope =? sign_no_zero next_slope)%Z ||
              negb (sign_no_zero slope =? sign_no_zero next_slope)%Z || eqb ny py in
  let tan_y :=
    if flat then Ok 0
    else
      let height := Rabs (ny - py) in
      let h1 := Rabs (ny - y) in
      let h2 := Rabs (y - py) in
      rbind (pdiv (Rmin h1 h2) height) (fun s => Ok (s * 2 * slope * tan_x)) in
  rbind tan_y (fun tan_y =>
  if in_tangent then Ok (tan_x * (-1), tan_y * (-1)) else Ok (tan_x, tan_y))))).

(** interpolation.py:264-274 [cubic_interpolate]. *)
Definition cubic_interpolate (p0 p1 p2 p3 : point) (t : R) : result R :=
  rbind (calculate_tangent p0 p1 p2 false) (fun out0 =>
  rbind (calculate_tangent p1 p2 p3 true) (fun in1 =>
  let q0 := p1 in
  let q3 := p2 in
  let q1 := (fst q0 + fst out0, snd q0 + snd out0) in
  let q2 := (fst q3 + fst in1, snd q3 + snd in1) in
  bezier_interpolate q0 q1 q2 q3 t)).

(** What [value_at] uses of a control point: [time] (components.py:479-490), [float(value)], and
    code and [float(value)] of its properties (components.py:468-477, 517-524). *)
Record key := { k_time : R; k_value : R; k_pp : list (Z * R) }.

(** [props.get(name, 0)] of components.py:508-514, by the code of the name (components.py:459-466);
    the last property with a name is the one in the dictionary (components.py:492-499). *)
Fixpoint pp_get (code : Z) (l : list (Z * R)) (default : R) : R :=
  match l with
  | [] => default
  | (c, v) :: l' => pp_get code l' (if (c =? code)%Z then v else default)
  end.

(** components.py:511-512, the first of [tangents]. *)
Definition in_tangent (k : key) : point := (pp_get 5 (k_pp k) 0, pp_get 6 (k_pp k) 0).
(** components.py:513-514, the second of [tangents]. *)
Definition out_tangent (k : key) : point := (pp_get 7 (k_pp k) 0, pp_get 8 (k_pp k) 0).

(** components.py:692-705, the binary search. Fuel: [end - start] falls in each round. *)
Fixpoint key_search (fuel : nat) (l : list key) (t : R) (lo hi : Z) : result Z :=
  match fuel with
  | O => Err OutOfFuel
  | S fuel' =>
    if (hi <? lo)%Z then Ok (Z.max 0 hi)
    else
      let m := ((lo + hi) / 2)%Z in
      match nth_error l (Z.to_nat m) with
      | None => Err IndexErr
      | Some p =>
        if ltb (k_time p) t then key_search fuel' l t (m + 1) hi
        else if ltb t (k_time p) then key_search fuel' l t lo (m - 1)
        else Ok m
      end
  end.

(** components.py:685-705 [ParamClip.nearest_index]. *)
Definition nearest_key (l : list key) (t : R) : result Z :=
  match l with
  | [] => Err ValueErr
  | _ => key_search (S (length l)) l t 0 (len l - 1)
  end.

(** components.py:733-751, the Bezier case. *)
Definition bezier_case (p1 p2 : key) (t : R) : result R :=
  let t0 := k_time p1 in
  let v0 := k_value p1 in
  let t3 := k_time p2 in
  let v3 := k_value p2 in
  let out := out_tangent p1 in
  let into := in_tangent p2 in
  bezier_interpolate (t0, v0) (t0 + fst out, v0 + snd out) (t3 + fst into, v3 + snd into) (t3, v3) t.

(** components.py:753-779, the cubic case. *)
Definition cubic_case (l : list key) (index : Z) (p1 p2 : key) (t : R) : result R :=
  let t1 := k_time p1 in
  let v1 := k_value p1 in
  let t2 := k_time p2 in
  let v2 := k_value p2 in
  rbind (if (0 <=? index - 1)%Z then
           match nth_error l (Z.to_nat (index - 1)) with
           | None => Err IndexErr
           | Some p0 => Ok (k_time p0, k_value p0)
           end
         else Ok (t1 - (t2 - t1) * (1 / 2), v1)) (fun q0 =>
  rbind (if (index + 2 <? len l)%Z then
           match nth_error l (Z.to_nat (index + 2)) with
           | None => Err IndexErr
           | Some p3 => Ok (k_time p3, k_value p3)
           end
         else Ok (t2 + (t2 - t1) * (1 / 2), v2)) (fun q3 =>
  cubic_interpolate q0 (t1, v1) (t2, v2) q3 t)).

(** components.py:708-785 [ParamClip.value_at]; the kinds by number (components.py:452-457). *)
Definition curve_at (kind : Z) (l : list key) (t : R) : result R :=
  rbind (nearest_key l t) (fun i =>
  match nth_error l (Z.to_nat i) with
  | None => Err IndexErr
  | Some p1 =>
    if ltb t (k_time p1) || (len l <=? i + 1)%Z then Ok (k_value p1)
    else if (kind =? 2)%Z then Ok (k_value p1)
    else
      match nth_error l (Z.to_nat (i + 1)) with
      | None => Err IndexErr
      | Some p2 =>
        if (kind =? 3)%Z then
          rbind (pdiv (t - k_time p1) (k_time p2 - k_time p1)) (fun t_mix =>
          Ok (k_value p1 + (k_value p2 - k_value p1) * t_mix))
        else if (kind =? 5)%Z then bezier_case p1 p2 t
        else if (kind =? 6)%Z then cubic_case l i p1 p2 t
        else Err NotImplementedErr
      end
  end).
