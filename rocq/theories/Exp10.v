(** Model of the decimal floats of src/avb/ioctx.py (lines 16-18, 128-150).
    A Python float is a [spec_float] of Coq's standard library with 53 bits of precision
    and emax 1024 (IEEE binary64, round to nearest even). *)
From Coq Require Import ZArith List Bool.
From Coq.Floats Require Import SpecFloat.
From Verif Require Import Base IoCtx.
Import ListNotations.
Open Scope Z_scope.

(** A Python float, as ioctx.py:132. *)
Definition float64 := spec_float.

(** Bits of precision of a Python float, as ioctx.py:132. *)
Definition prec64 : Z := 53.
(** Largest exponent of a Python float, as ioctx.py:132. *)
Definition emax64 : Z := 1024.

(** [a * b] of floats, ioctx.py:132 and 141. *)
Definition fmul (a b : float64) : float64 := SFmul prec64 emax64 a b.

(** [float(n)] of an integer: nearest double; [OverflowError] when it would be infinite
    (ioctx.py:132). *)
Definition f_of_Z (n : Z) : float64 := binary_normalize prec64 emax64 n 0 false.

(** [float(n)] with its [OverflowError], ioctx.py:132. *)
Definition f_of_Z_py (n : Z) : result float64 :=
  match f_of_Z n with S754_infinity _ => Err OverflowErr | f => Ok f end.

(** [int(value)]: truncation towards zero (ioctx.py:136 and 149). *)
Definition f_trunc (x : float64) : result Z :=
  match x with
  | S754_zero _ => Ok 0
  | S754_infinity _ => Err OverflowErr
  | S754_nan => Err ValueErr
  | S754_finite s m e =>
    let a := if 0 <=? e then Zpos m * 2 ^ e else Zpos m / 2 ^ (- e) in
    Ok (if s then - a else a)
  end.

(** [value == n] for an integer: exact comparison (ioctx.py:136). *)
Definition f_eq_Z (x : float64) (n : Z) : bool :=
  match x with
  | S754_zero _ => n =? 0
  | S754_finite s m e =>
    let sm := if s then Zneg m else Zpos m in
    if 0 <=? e then sm * 2 ^ e =? n else sm =? n * 2 ^ (- e)
  | _ => false
  end.

(** [abs(value) >= n] for an integer: exact comparison (ioctx.py:137). *)
Definition f_abs_ge_Z (x : float64) (n : Z) : bool :=
  match x with
  | S754_zero _ => n <=? 0
  | S754_infinity _ => true
  | S754_nan => false
  | S754_finite _ m e =>
    if 0 <=? e then n <=? Zpos m * 2 ^ e else n * 2 ^ (- e) <=? Zpos m
  end.

(** The factor of ioctx.py:137 and 141. *)
Definition f_ten : float64 := f_of_Z 10.

(** ioctx.py:135-142: the scaling loop. Fuel: the exponent falls by one per round and -6
    ends the loop. *)
Fixpoint exp10_scale (fuel : nat) (value : float64) (exponent : Z) : result (float64 * Z) :=
  match fuel with
  | O => Err OutOfFuel
  | S fuel' =>
    match f_trunc value with
    | Err e => Err e
    | Ok n =>
      if f_eq_Z value n then Ok (value, exponent)
      else if f_abs_ge_Z (fmul value f_ten) 0x7FFFFFFF then Ok (value, exponent)
      else if exponent <=? -6 then Ok (value, exponent)
      else exp10_scale fuel' (fmul value f_ten) (exponent - 1)
    end
  end.

(** ioctx.py:16-18 and 144-150: mantissa and exponent stored. *)
Definition exp10_parts (value : float64) : result (Z * Z) :=
  match exp10_scale 7 value 0 with
  | Err e => Err e
  | Ok (v, exponent) =>
    if f_eq_Z v 5994 then Ok (59940, -3)
    else match f_trunc v with Err e => Err e | Ok n => Ok (n, exponent) end
  end.

(** ioctx.py:134-150 [write_exp10_encoded_float]. *)
Definition wexp10 (bo : border) (value : float64) : writer :=
  match exp10_parts value with
  | Err e => Err e
  | Ok (m, e) => ws32 bo m +++ ws16 bo e
  end.

(** [pow(10, e)] as the second operand of a product with a float. For [e >= 0] it is an integer,
    converted by the product; for [e < 0] it is the float nearest to [10^e] (the C library's [pow]
    is trusted to round correctly here) (ioctx.py:132). *)
Definition pow10 (e : Z) : result float64 :=
  if 0 <=? e then f_of_Z_py (10 ^ e)
  else Ok (SFdiv prec64 emax64 (S754_finite false 1 0)
             (S754_finite false (Z.to_pos (10 ^ (- e))) 0)).

(** ioctx.py:132: [float(mantissa) * pow(10, exp10)]. *)
Definition exp10_value (m e : Z) : result float64 :=
  match pow10 e with Err x => Err x | Ok p => Ok (fmul (f_of_Z m) p) end.

(** ioctx.py:128-132 [read_exp10_encoded_float]. *)
Definition rexp10 (bo : border) : reader float64 :=
  m <- rs32 bo ;; e <- rs16 bo ;;
  match exp10_value m e with Ok f => ret f | Err x => fail x end.
