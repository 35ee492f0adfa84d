(** Numeric parser: src/parser.rs. *)
From Coq Require Import ZArith List Bool.
From Verif Require Import Base.
Import ListNotations.
Open Scope Z_scope.

(** src/parser.rs 5-9 [IResult] *)
Inductive iresult (T : Type) :=
| Done (rest : bytes) (v : T)
| Err (e : Z).
Arguments Done {T}.
Arguments Err {T}.

(** src/exception.rs [RESULT_OUT_OF_RANGE] *)
Definition EXN_RESULT_OUT_OF_RANGE : Z := -11.

(** src/parser.rs 11-29 [sign] *)
Definition sign (input : bytes) : bytes * Z :=
  match input with
  | c :: r => if c =? 43 then (r, 1) else if c =? 45 then (r, -1) else (input, 1)
  | [] => (input, 1)
  end.

(** src/parser.rs 31-54 [base] *)
Definition base_prefix (input : bytes) (default_base : Z) : bytes * Z :=
  match input with
  | c :: r =>
    if c =? 37 then (r, 2)
    else if c =? 35 then (r, 10)
    else if c =? 36 then (r, 16)
    else (input, default_base)
  | [] => (input, default_base)
  end.

(** src/parser.rs 62-70: value of a digit character *)
Definition digit_of (c : Z) : option Z :=
  if (48 <=? c) && (c <=? 57) then Some (c - 48)
  else if (97 <=? c) && (c <=? 102) then Some (c - 97 + 10)
  else if (65 <=? c) && (c <=? 70) then Some (c - 65 + 10)
  else None.

(** src/parser.rs 56-80 [uint_in_base]; it either consumes the whole input or fails *)
Fixpoint uint_in_base_loop (input : bytes) (base value : Z) : iresult Z :=
  match input with
  | [] => Done [] value
  | c :: r =>
    match digit_of c with
    | None => Err EXN_RESULT_OUT_OF_RANGE
    | Some d =>
      if base <=? d then Err EXN_RESULT_OUT_OF_RANGE
      else uint_in_base_loop r base (to_i64 (to_i64 (value * base) + d))
    end
  end.
Definition uint_in_base (input : bytes) (base : Z) : iresult Z :=
  uint_in_base_loop input base 0.

(** src/parser.rs 82-105 [uint]: [checked_mul]/[checked_add], stops at the first non-digit *)
Fixpoint uint_loop (input : bytes) (value : Z) : iresult Z :=
  match input with
  | [] => Done [] value
  | c :: r =>
    if (48 <=? c) && (c <=? 57) then
      if in_i64 (value * 10) && in_i64 (value * 10 + (c - 48))
      then uint_loop r (value * 10 + (c - 48))
      else Err EXN_RESULT_OUT_OF_RANGE
    else Done input value
  end.
Definition uint (input : bytes) : iresult Z := uint_loop input 0.

(** src/parser.rs 108-114 [quoted_char] *)
Definition quoted_char (input : bytes) : option Z :=
  match input with
  | [q1; c; q2] => if (q1 =? 39) && (q2 =? 39) then Some c else None
  | _ => None
  end.

(** src/parser.rs 116-122 [ascii] *)
Definition ascii_p (input : bytes) (a : Z) : bytes * bool :=
  match input with
  | c :: r => if c =? a then (r, true) else (input, false)
  | [] => (input, false)
  end.

(** src/parser.rs 124-149 [fraction].  Returns digits value and digit count;
    the caller divides by 10^count in floating point (line 145). *)
Fixpoint fraction_loop (input : bytes) (value cnt : Z) : iresult (Z * Z) :=
  match input with
  | [] => Done [] (value, cnt)
  | c :: r =>
    if (48 <=? c) && (c <=? 57) then
      if in_i64 (value * 10) && in_i64 (value * 10 + (c - 48))
      then fraction_loop r (value * 10 + (c - 48)) (cnt + 1)
      else Err EXN_RESULT_OUT_OF_RANGE
    else Done input (value, cnt)
  end.
Definition fraction (input : bytes) : iresult (option (Z * Z)) :=
  match input with
  | c :: r =>
    if c =? 46 then
      match fraction_loop r 0 0 with
      | Done rest p => Done rest (Some p)
      | Err e => Err e
      end
    else Done input None
  | [] => Done input None
  end.
