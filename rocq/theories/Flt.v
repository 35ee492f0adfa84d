(** IEEE-754 binary64 arithmetic on bit patterns, through the standard
    library's SpecFloat (the reference specification, computable, no axioms).

    An f64 is modelled by its 64-bit pattern, a [Z] in [0, 2^64).  All NaN
    results are canonicalised to 0x7ff8000000000000: Rust leaves sign and
    payload of NaN results unspecified. *)
From Coq Require Import ZArith List Bool.
From Coq Require Import Floats.SpecFloat.
From Verif Require Import Base.
Open Scope Z_scope.

Definition prec : Z := 53.
Definition emax : Z := 1024.
Definition sf := spec_float.

Definition F_NAN : Z := 9221120237041090560.        (* 0x7ff8000000000000 *)
Definition two52 : Z := 4503599627370496.
Definition F_INF : Z := 9218868437227405312.        (* 0x7ff0000000000000 *)

(** f64::from_bits *)
Definition sf_of_bits (x : Z) : sf :=
  let s := two63 <=? x in
  let e := x / two52 mod 2048 in
  let m := x mod two52 in
  if e =? 2047 then (if m =? 0 then S754_infinity s else S754_nan)
  else if e =? 0 then
    (match m with Zpos p => S754_finite s p (-1074) | _ => S754_zero s end)
  else
    (match m + two52 with Zpos p => S754_finite s p (e - 1075) | _ => S754_zero s end).

(** f64::to_bits for canonical floats: mantissas below 2^53, normalised *)
Definition bits_of_sf (f : sf) : Z :=
  let sb (s : bool) := if s then two63 else 0 in
  match f with
  | S754_zero s => sb s
  | S754_infinity s => sb s + F_INF
  | S754_nan => F_NAN
  | S754_finite s m e =>
    if Zpos m <? two52 then sb s + Zpos m
    else sb s + (e + 1075) * two52 + (Zpos m - two52)
  end.

Definition f_is_nan (x : Z) : bool :=
  match sf_of_bits x with S754_nan => true | _ => false end.

(** f64 operators [+ - * /] *)
Definition fadd (x y : Z) : Z := bits_of_sf (SFadd prec emax (sf_of_bits x) (sf_of_bits y)).
Definition fsub (x y : Z) : Z := bits_of_sf (SFsub prec emax (sf_of_bits x) (sf_of_bits y)).
Definition fmul (x y : Z) : Z := bits_of_sf (SFmul prec emax (sf_of_bits x) (sf_of_bits y)).
Definition fdiv (x y : Z) : Z := bits_of_sf (SFdiv prec emax (sf_of_bits x) (sf_of_bits y)).
(** f64::sqrt *)
Definition fsqrt_ (x : Z) : Z := bits_of_sf (SFsqrt prec emax (sf_of_bits x)).
(** f64::abs and unary minus: sign-bit operations *)
Definition fabs_ (x : Z) : Z := x mod two63.
Definition fneg_ (x : Z) : Z := if two63 <=? x then x - two63 else x + two63.
(** f64 comparisons *)
Definition flt (x y : Z) : bool := SFltb (sf_of_bits x) (sf_of_bits y).
Definition feq (x y : Z) : bool := SFeqb (sf_of_bits x) (sf_of_bits y).
(** f64::min / f64::max: a NaN operand is ignored *)
Definition fmin_ (x y : Z) : Z :=
  if f_is_nan x then y else if f_is_nan y then x else if flt y x then y else x.
Definition fmax_ (x y : Z) : Z :=
  if f_is_nan x then y else if f_is_nan y then x else if flt x y then y else x.

(** [z as f64] for an integer, with the sign of a zero result given *)
Definition f_of_Z (z : Z) (neg_zero : bool) : Z :=
  bits_of_sf (binary_normalize prec emax z 0 neg_zero).

(** Integer value of a finite number with negative exponent, by rounding mode *)
Definition floor_pos (m : positive) (e : Z) : Z := Zpos m / 2 ^ (- e).
Definition ceil_pos (m : positive) (e : Z) : Z := - ((- Zpos m) / 2 ^ (- e)).
(** round half away from zero (of the absolute value) *)
Definition round_pos (m : positive) (e : Z) : Z := (2 * Zpos m + 2 ^ (- e)) / (2 * 2 ^ (- e)).

Definition f_round_with (up : bool -> positive -> Z -> Z) (x : Z) : Z :=
  match sf_of_bits x with
  | S754_finite s m e =>
    if 0 <=? e then x
    else let a := up s m e in f_of_Z (if s then - a else a) s
  | S754_nan => F_NAN
  | _ => x
  end.
(** f64::floor, ceil, round *)
Definition ffloor (x : Z) : Z := f_round_with (fun s => if s : bool then ceil_pos else floor_pos) x.
Definition fceil_ (x : Z) : Z := f_round_with (fun s => if s : bool then floor_pos else ceil_pos) x.
Definition fround_ (x : Z) : Z := f_round_with (fun _ => round_pos) x.

(** [x as isize]: truncation, saturating, NaN to 0 *)
Definition f_to_i64 (x : Z) : Z :=
  match sf_of_bits x with
  | S754_nan => 0
  | S754_zero _ => 0
  | S754_infinity s => if s then imin else imax
  | S754_finite s m e =>
    let a := if 0 <=? e then Zpos m * 2 ^ e else floor_pos m e in
    if s then Z.max imin (- a) else Z.min imax a
  end.
