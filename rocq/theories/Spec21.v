(** Vocabulary for properties about floating-point words.

    A float is its 64-bit pattern.  The real number it stands for is read off
    the three fields of the pattern, as IEEE 754 defines it; correct rounding
    is stated over the real numbers, with no reference to an algorithm. *)
From Coq Require Import ZArith Reals.
Open Scope Z_scope.

(** A 64-bit pattern, and its fields *)
Definition double (x : Z) : Prop := 0 <= x < 2 ^ 64.
Definition negative (x : Z) : bool := 2 ^ 63 <=? x.
Definition exponent (x : Z) : Z := x / 2 ^ 52 mod 2 ^ 11.
Definition fraction (x : Z) : Z := x mod 2 ^ 52.

(** Numbers, infinities and NaNs *)
Definition finite (x : Z) : Prop := double x /\ exponent x <> 2047.
Definition infinite (x : Z) : Prop := double x /\ exponent x = 2047 /\ fraction x = 0.
Definition not_a_number (x : Z) : Prop := double x /\ exponent x = 2047 /\ fraction x <> 0.

Definition plus_zero : Z := 0.
Definition minus_zero : Z := 2 ^ 63.
Definition plus_infinity : Z := 2047 * 2 ^ 52.
Definition minus_infinity : Z := 2 ^ 63 + 2047 * 2 ^ 52.

(** The real number a finite pattern stands for *)
Definition magnitude (x : Z) : R :=
  if exponent x =? 0 then (IZR (fraction x) * powerRZ 2 (-1074))%R
  else (IZR (2 ^ 52 + fraction x) * powerRZ 2 (exponent x - 1075))%R.
Definition value (x : Z) : R :=
  if negative x then (- magnitude x)%R else magnitude x.

(** [y] is a finite float nearest to [r]; of two nearest ones it is the one
    with an even last bit *)
Definition nearest (r : R) (y : Z) : Prop :=
  finite y /\
  (forall z, finite z -> Rabs (value y - r) <= Rabs (value z - r))%R /\
  (forall z, finite z -> Rabs (value z - r) = Rabs (value y - r) -> value z <> value y ->
             Z.even y = true).

(** Half a unit in the last place above the largest finite float *)
Definition too_large : R := (powerRZ 2 1024 - powerRZ 2 970)%R.

(** [y] is the correct rounding of the real [r]: an infinity if [r] is too
    large, else the nearest float, with the sign of [r] *)
Definition rounded (r : R) (y : Z) : Prop :=
  (Rabs r < too_large /\ nearest r y /\
   (r < 0 -> negative y = true) /\ (0 < r -> negative y = false))%R \/
  (too_large <= r /\ y = plus_infinity)%R \/
  (r <= - too_large /\ y = minus_infinity)%R.

(** The two results a comparison can leave *)
Definition truth (P : Prop) (n : Z) : Prop := (P /\ n = -1) \/ (~ P /\ n = 0).

(** A finite float standing for the integer [n] *)
Definition is_integer (y n : Z) : Prop := finite y /\ value y = IZR n.

(** The order of floats: NaNs compare with nothing, infinities are the ends *)
Definition less (x y : Z) : Prop :=
  (finite x /\ finite y /\ (value x < value y)%R) \/
  (x = minus_infinity /\ (finite y \/ y = plus_infinity)) \/
  (finite x /\ y = plus_infinity).
Definition equal (x y : Z) : Prop :=
  (finite x /\ finite y /\ value x = value y) \/ (infinite x /\ x = y).

(** [n] is [r] without its fractional part *)
Definition truncated (r : R) (n : Z) : Prop :=
  ((0 <= r -> IZR n <= r < IZR n + 1) /\ (r <= 0 -> IZR n - 1 < r <= IZR n))%R.
(** [n] is the integer nearest to [r], the one further from zero on a tie *)
Definition nearest_integer (r : R) (n : Z) : Prop :=
  (Rabs (IZR n - r) <= / 2 /\ (Rabs (IZR n - r) = / 2 -> Rabs r < Rabs (IZR n)))%R.
