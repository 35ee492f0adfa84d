(** Properties C69-C74: floating-point words. *)
From Coq Require Import ZArith List Bool Reals Lia.
From Verif Require Import Base Stack Mem State CoreM Exec Boot Std Spec Spec2 Spec21 Spec22 Ex LReal3 LReal5 LReal6 Ex16.
Import ListNotations.
Open Scope Z_scope.

(** C69.  Each arithmetic word leaves the correct rounding of the real result. *)
Theorem C69_arithmetic {E : Env} : forall x y, finite x -> finite y ->
  gives P_fplus [] [y; x] (a_float (rounded (value x + value y))) /\
  gives P_fminus [] [y; x] (a_float (rounded (value x - value y))) /\
  gives P_fstar [] [y; x] (a_float (rounded (value x * value y))) /\
  (value y <> 0%R -> gives P_fslash [] [y; x] (a_float (rounded (value x / value y)))) /\
  ((0 < value x)%R -> gives P_fsqrt [] [x] (a_float (rounded (sqrt (value x))))).
Proof. exact arithmetic_gives. Qed.
Print Assumptions C69_arithmetic.

(** Signs of results that are zero, and of products and quotients *)
Theorem C69_signs {E : Env} : forall x y, finite x -> finite y ->
  ((value x + value y = 0)%R ->
     word_effect P_fplus [] [] [y; x] [] [] [if negative x && negative y then minus_zero else plus_zero]) /\
  ((value x - value y = 0)%R ->
     word_effect P_fminus [] [] [y; x] [] [] [if negative x && negb (negative y) then minus_zero else plus_zero]) /\
  gives P_fstar [] [y; x] (a_float (fun z => finite z -> negative z = xorb (negative x) (negative y))) /\
  (value y <> 0%R ->
     gives P_fslash [] [y; x] (a_float (fun z => finite z -> negative z = xorb (negative x) (negative y)))) /\
  (value x = 0%R -> word_effect P_fsqrt [] [] [x] [] [] [x]).
Proof. exact zeros_gives. Qed.
Print Assumptions C69_signs.

(** NaNs propagate *)
Theorem C69_nan {E : Env} : forall x y, double x -> double y -> not_a_number x \/ not_a_number y ->
  gives P_fplus [] [y; x] (a_float not_a_number) /\ gives P_fminus [] [y; x] (a_float not_a_number) /\
  gives P_fstar [] [y; x] (a_float not_a_number) /\ gives P_fslash [] [y; x] (a_float not_a_number) /\
  (not_a_number x -> gives P_fsqrt [] [x] (a_float not_a_number)).
Proof. exact nan_gives. Qed.
Print Assumptions C69_nan.

(** Infinities *)
Theorem C69_infinite {E : Env} : forall x y, infinite x -> finite y \/ infinite y ->
  (finite y \/ negative x = negative y -> word_effect P_fplus [] [] [y; x] [] [] [x]) /\
  (infinite y /\ negative x <> negative y -> gives P_fplus [] [y; x] (a_float not_a_number)) /\
  (finite y \/ negative x <> negative y -> word_effect P_fminus [] [] [y; x] [] [] [x]) /\
  (infinite y /\ negative x = negative y -> gives P_fminus [] [y; x] (a_float not_a_number)) /\
  (value y <> 0%R /\ finite y \/ infinite y ->
     word_effect P_fstar [] [] [y; x] [] []
       [if xorb (negative x) (negative y) then minus_infinity else plus_infinity]) /\
  (finite y -> value y = 0%R -> gives P_fstar [] [y; x] (a_float not_a_number)) /\
  (finite y ->
     word_effect P_fslash [] [] [y; x] [] []
       [if xorb (negative x) (negative y) then minus_infinity else plus_infinity] /\
     word_effect P_fslash [] [] [x; y] [] []
       [if xorb (negative y) (negative x) then minus_zero else plus_zero]) /\
  (infinite y -> gives P_fslash [] [y; x] (a_float not_a_number)).
Proof. exact infinite_gives. Qed.
Print Assumptions C69_infinite.

(** Division by zero and square roots outside the domain *)
Theorem C69_division_by_zero {E : Env} : forall x y, finite x -> finite y -> value y = 0%R ->
  (value x <> 0%R ->
     word_effect P_fslash [] [] [y; x] [] []
       [if xorb (negative x) (negative y) then minus_infinity else plus_infinity]) /\
  (value x = 0%R -> gives P_fslash [] [y; x] (a_float not_a_number)).
Proof. exact div_zero_gives. Qed.
Print Assumptions C69_division_by_zero.
Theorem C69_sqrt_special {E : Env} : forall x,
  (finite x -> (value x < 0)%R -> gives P_fsqrt [] [x] (a_float not_a_number)) /\
  (x = plus_infinity -> word_effect P_fsqrt [] [] [x] [] [] [x]) /\
  (x = minus_infinity -> gives P_fsqrt [] [x] (a_float not_a_number)).
Proof. exact sqrt_special_gives. Qed.
Print Assumptions C69_sqrt_special.

(** Integers up to 2^53 are added, subtracted and multiplied exactly *)
Theorem C69_integers {E : Env} : forall x y a c, is_integer x a -> is_integer y c ->
  (Z.abs (a + c) <= 2 ^ 53 -> gives P_fplus [] [y; x] (a_float (fun z => is_integer z (a + c)))) /\
  (Z.abs (a - c) <= 2 ^ 53 -> gives P_fminus [] [y; x] (a_float (fun z => is_integer z (a - c)))) /\
  (Z.abs (a * c) <= 2 ^ 53 -> gives P_fstar [] [y; x] (a_float (fun z => is_integer z (a * c)))).
Proof. exact integer_sum_gives. Qed.
Print Assumptions C69_integers.

(** 0.1 + 0.2 is one unit above 0.3; overflow; underflow; a square root *)
Example C69_case : finite f01 /\ finite f02 /\ finite fmax /\ finite fmin1 /\ finite f2 /\
  stacks_are (fex [5] [f02; f01]) [5] [] [f02; f01] /\
  runf P_fplus [5] [f02; f01] = Some ([5], [f03']) /\
  runf P_fplus [] [fmax; fmax] = Some ([], [plus_infinity]) /\
  runf P_fslash [] [f2; fmin1] = Some ([], [plus_zero]) /\
  runf P_fsqrt [] [f2] = Some ([], [4609047870845172685]) /\
  runf P_fminus [] [f2; f1] = Some ([], [f1 + 2 ^ 63]).
Proof.
  destruct cases_finite as (A & B & C & D & F & G & H).
  split; [exact A |]. split; [exact B |]. split; [exact G |]. split; [exact H |]. split; [exact D |].
  split; [apply fex_has; vm_compute; discriminate |].
  split; [vm_compute; reflexivity |]. split; [vm_compute; reflexivity |]. split; [vm_compute; reflexivity |].
  split; vm_compute; reflexivity.
Qed.

(** C70.  Comparison words agree with the order of the real numbers, with the
    infinities at the ends; NaNs compare false. *)
Theorem C70_comparisons {E : Env} : forall x y, double x -> double y ->
  gives P_f_less_than [] [y; x] (a_cell (truth (less x y))) /\
  gives P_f_zero_less_than [] [x] (a_cell (truth (less x plus_zero))) /\
  gives P_f_zero_equals [] [x] (a_cell (truth (equal x plus_zero))).
Proof. exact compare_gives. Qed.
Print Assumptions C70_comparisons.

Theorem C70_min_max_abs_negate {E : Env} : forall x y, finite x -> finite y ->
  gives P_fmin [] [y; x] (a_float (fun z => (z = x \/ z = y) /\ value z = Rmin (value x) (value y))) /\
  gives P_fmax [] [y; x] (a_float (fun z => (z = x \/ z = y) /\ value z = Rmax (value x) (value y))) /\
  gives P_fabs [] [x] (a_float (fun z => finite z /\ negative z = false /\ value z = Rabs (value x))) /\
  gives P_fnegate [] [x] (a_float (fun z => finite z /\ negative z = negb (negative x) /\ value z = (- value x)%R)).
Proof. exact minmax_gives. Qed.
Print Assumptions C70_min_max_abs_negate.

(** A single NaN operand of fmin and fmax is ignored *)
Theorem C70_min_max_nan {E : Env} : forall x y, double x -> double y -> not_a_number x -> ~ not_a_number y ->
  word_effect P_fmin [] [] [y; x] [] [] [y] /\ word_effect P_fmin [] [] [x; y] [] [] [y] /\
  word_effect P_fmax [] [] [y; x] [] [] [y] /\ word_effect P_fmax [] [] [x; y] [] [] [y].
Proof. exact minmax_nan_gives. Qed.
Print Assumptions C70_min_max_nan.

Example C70_case : finite fm25 /\ finite f01 /\ not_a_number 9221120237041090560 /\
  runf P_f_less_than [] [f01; fm25] = Some ([-1], []) /\ runf P_f_less_than [] [fm25; f01] = Some ([0], []) /\
  runf P_f_zero_equals [] [minus_zero] = Some ([-1], []) /\
  runf P_f_less_than [] [9221120237041090560; f01] = Some ([0], []) /\
  runf P_fmin [] [fm25; f01] = Some ([], [fm25]) /\ runf P_fmax [7] [fm25; f01] = Some ([7], [f01]).
Proof.
  destruct cases_finite as (A & B & C & D & F & G & H).
  split; [exact F |]. split; [exact A |]. split; [exact nan_case |].
  split; [vm_compute; reflexivity |]. split; [vm_compute; reflexivity |]. split; [vm_compute; reflexivity |].
  split; [vm_compute; reflexivity |]. split; vm_compute; reflexivity.
Qed.

(** C71.  Conversions between cells and floats, and to integral floats. *)
Theorem C71_s_to_f {E : Env} : forall n,
  gives P_s_to_f [n] [] (a_float (rounded (IZR n))) /\
  (Z.abs n <= 2 ^ 53 -> gives P_s_to_f [n] [] (a_float (fun z => is_integer z n))).
Proof. exact (fun n => conj (stof_gives n) (stof_exact n)). Qed.
Print Assumptions C71_s_to_f.

(** f>s cuts off the fraction and saturates *)
Theorem C71_f_to_s {E : Env} : forall x,
  (finite x -> gives P_f_to_s [] [x] (a_cell (fun n =>
     exists m, truncated (value x) m /\ n = Z.max (- 2 ^ 63) (Z.min (2 ^ 63 - 1) m)))) /\
  (x = plus_infinity -> word_effect P_f_to_s [] [] [x] [2 ^ 63 - 1] [] []) /\
  (x = minus_infinity -> word_effect P_f_to_s [] [] [x] [- 2 ^ 63] [] []) /\
  (not_a_number x -> word_effect P_f_to_s [] [] [x] [0] [] []).
Proof. exact (fun x => conj (ftos_gives x) (ftos_other x)). Qed.
Print Assumptions C71_f_to_s.

Theorem C71_round_trip {E : Env} : forall n, Z.abs n <= 2 ^ 53 ->
  exists z, word_effect P_s_to_f [n] [] [] [] [] [z] /\ word_effect P_f_to_s [] [] [z] [n] [] [].
Proof. exact round_trip_gives. Qed.
Print Assumptions C71_round_trip.

(** Not every cell survives the round trip *)
Theorem C71_round_trip_refuted {E : Env} : exists n z, is_cell n /\
  word_effect P_s_to_f [n] [] [] [] [] [z] /\ word_effect P_f_to_s [] [] [z] [n - 1] [] [].
Proof. exact round_trip_lost. Qed.
Print Assumptions C71_round_trip_refuted.

Theorem C71_integral {E : Env} : forall x, finite x ->
  gives P_floor [] [x] (a_float (fun z => exists n, is_integer z n /\ (IZR n <= value x < IZR n + 1)%R)) /\
  gives P_fceil [] [x] (a_float (fun z => exists n, is_integer z n /\ (IZR n - 1 < value x <= IZR n)%R)) /\
  gives P_fround [] [x] (a_float (fun z => exists n, is_integer z n /\ nearest_integer (value x) n)).
Proof. exact integral_gives. Qed.
Print Assumptions C71_integral.
Theorem C71_integral_other {E : Env} : forall p x, p = P_floor \/ p = P_fceil \/ p = P_fround ->
  (infinite x -> word_effect p [] [] [x] [] [] [x]) /\
  (not_a_number x -> gives p [] [x] (a_float not_a_number)).
Proof. exact integral_other. Qed.
Print Assumptions C71_integral_other.

(** -2.5: floor -3, fceil -2, fround -3 (away from zero), f>s -2 *)
Example C71_case : finite fm25 /\ finite fmax /\
  runf P_floor [] [fm25] = Some ([], [13837309855095848960]) /\ runf P_fceil [] [fm25] = Some ([], [f2 + 2 ^ 63]) /\
  runf P_fround [] [fm25] = Some ([], [13837309855095848960]) /\ runf P_f_to_s [] [fm25] = Some ([-2], []) /\
  runf P_f_to_s [] [fmax] = Some ([2 ^ 63 - 1], []) /\ runf P_s_to_f [2] [] = Some ([], [f2]).
Proof.
  destruct cases_finite as (A & B & C & D & F & G & H). split; [exact F |]. split; [exact G |].
  split; [vm_compute; reflexivity |]. split; [vm_compute; reflexivity |]. split; [vm_compute; reflexivity |].
  split; [vm_compute; reflexivity |]. split; vm_compute; reflexivity.
Qed.

(** C72.  f~ with a positive third operand compares the rounded distance, with
    zero it compares the numbers, with a negative one the distance relative to
    the sum of the absolute values. *)
Theorem C72_f_proximate {E : Env} : forall x1 x2 x3, finite x1 -> finite x2 -> finite x3 ->
  ((0 < value x3)%R ->
     exists d, rounded (value x1 - value x2) d /\
     gives P_fproximate [] [x3; x2; x1] (a_cell (truth (finite d /\ Rabs (value d) < value x3)%R))) /\
  (value x3 = 0%R -> gives P_fproximate [] [x3; x2; x1] (a_cell (truth (value x1 = value x2)))).
Proof. exact fprox_gives. Qed.
Print Assumptions C72_f_proximate.
Theorem C72_relative {E : Env} : forall x1 x2 x3, finite x1 -> finite x2 -> finite x3 -> (value x3 < 0)%R ->
  exists d s p, rounded (value x1 - value x2) d /\ rounded (Rabs (value x1) + Rabs (value x2)) s /\
    (finite s -> rounded (Rabs (value x3) * value s) p) /\
    (finite p -> gives P_fproximate [] [x3; x2; x1] (a_cell (truth (finite d /\ Rabs (value d) < value p)%R))).
Proof. exact fprox_neg_gives. Qed.
Print Assumptions C72_relative.
(** A true flag is right: the real distance is below the bound *)
Theorem C72_sound_partial {E : Env} : forall x1 x2 x3, finite x1 -> finite x2 -> finite x3 -> (0 < value x3)%R ->
  gives P_fproximate [] [x3; x2; x1] (a_cell (fun n => n = -1 -> (Rabs (value x1 - value x2) < value x3)%R)).
Proof. exact fprox_sound. Qed.
Print Assumptions C72_sound_partial.
(** A false flag may be wrong: the distance is rounded before it is compared *)
Theorem C72_complete_refuted {E : Env} : exists x1 x2 x3, finite x1 /\ finite x2 /\ finite x3 /\ (0 < value x3)%R /\
  (Rabs (value x1 - value x2) < value x3)%R /\ word_effect P_fproximate [] [] [x3; x2; x1] [0] [] [].
Proof. exact fprox_missed. Qed.
Print Assumptions C72_complete_refuted.
Example C72_case : finite f01 /\ finite f02 /\ runf P_fproximate [] [f02; f1; f1] = Some ([-1], []) /\
  runf P_fproximate [] [f01; f02; f1] = Some ([0], []) /\ runf P_fproximate [] [f1 + 2 ^ 63; f02; f01] = Some ([-1], []).
Proof.
  destruct cases_finite as (A & B & _). split; [exact A |]. split; [exact B |].
  split; [vm_compute; reflexivity |]. split; vm_compute; reflexivity.
Qed.

(** C73.  The constant pi and the unit words. *)
Theorem C73_pi {E : Env} : gives P_pi [] [] (a_float (rounded PI)).
Proof. exact pi_gives. Qed.
Print Assumptions C73_pi.
Theorem C73_units {E : Env} : forall x, finite x ->
  gives P_from_meter [] [x] (a_float (fun z => finite z /\ value z = value x)) /\
  gives P_from_sec [] [x] (a_float (fun z => finite z /\ value z = value x)) /\
  gives P_from_minute [] [x] (a_float (rounded (value x * 60))) /\
  gives P_from_hour [] [x] (a_float (rounded (value x * 3600))) /\
  word_effect P_from_rad [] [] [x] [] [] [x] /\ word_effect P_hertz [] [] [x] [] [] [x].
Proof. exact simple_units. Qed.
Print Assumptions C73_units.
Theorem C73_scaled_units {E : Env} : exists mm um pi, rounded (1 / 1000) mm /\ rounded (1 / 1000000) um /\ rounded PI pi /\
  forall x, finite x ->
  gives P_from_mm [] [x] (a_float (rounded (value x * value mm))) /\
  gives P_from_msec [] [x] (a_float (rounded (value x * value mm))) /\
  gives P_from_um [] [x] (a_float (rounded (value x * value um))) /\
  gives P_from_usec [] [x] (a_float (rounded (value x * value um))) /\
  gives P_from_deg [] [x] (a_float (fun z => exists t, rounded (value x * value pi) t /\
                                        (finite t -> rounded (value t / 180) z))) /\
  gives P_mm_per_min [] [x] (a_float (fun z => exists t, rounded (value x * value mm) t /\
                                        (finite t -> rounded (value t / 60) z))) /\
  gives P_mm_per_sec [] [x] (a_float (fun z => exists t, rounded (value x * value mm) t /\
                                        (finite t -> value z = value t))) /\
  gives P_um_per_msec [] [x] (a_float (fun z => exists t, rounded (value x * value um) t /\
                                        (finite t -> rounded (value t / value mm) z))) /\
  gives P_rpm [] [x] (a_float (fun z => exists c, rounded (2 * value pi / 60) c /\ rounded (value x * value c) z)).
Proof. exact small_units. Qed.
Print Assumptions C73_scaled_units.
(** The words of the mathematical library replace their operands by the library's result *)
Theorem C73_library_functions {E : Env} : forall x y,
  word_effect P_fsin [] [] [x] [] [] [l_sin x] /\ word_effect P_fcos [] [] [x] [] [] [l_cos x] /\
  word_effect P_ftan [] [] [x] [] [] [l_tan x] /\ word_effect P_fasin [] [] [x] [] [] [l_asin x] /\
  word_effect P_facos [] [] [x] [] [] [l_acos x] /\ word_effect P_fatan [] [] [x] [] [] [l_atan x] /\
  word_effect P_fatan2 [] [] [y; x] [] [] [l_atan2 x y] /\ word_effect P_fpowf [] [] [y; x] [] [] [l_powf x y] /\
  word_effect P_fsincos [] [] [x] [] [] [l_cos x; l_sin x].
Proof. exact platform_gives. Qed.
Print Assumptions C73_library_functions.
(** 2 hr is 7200; 1 mm is 0.001; 180 deg is pi *)
Example C73_case : finite f2 /\ finite f1 /\ runf P_from_hour [] [f2] = Some ([], [4664638498421080064]) /\
  runf P_from_mm [] [f1] = Some ([], [4562254508917369340]) /\
  runf P_from_deg [] [4640537203540230144] = Some ([], [4614256656552045848]) /\
  runf P_pi [] [f1] = Some ([], [4614256656552045848; f1]).
Proof.
  destruct cases_finite as (A & B & C & D & _). split; [exact D |]. split; [exact C |].
  split; [vm_compute; reflexivity |]. split; [vm_compute; reflexivity |]. split; vm_compute; reflexivity.
Qed.

(** C74.  Address units: within the range of cells the words add or multiply;
    beyond it the debug build panics and the release build wraps. *)
Theorem C74_address_units {E : Env} : forall x,
  (is_cell (x + 1) -> word_effect P_char_plus [x] [] [] [x + 1] [] []) /\
  (is_cell (x + 8) -> word_effect P_cell_plus [x] [] [] [x + 8] [] []) /\
  (is_cell (x + 8) -> word_effect P_float_plus [x] [] [] [x + 8] [] []) /\
  (is_cell (x * 8) -> word_effect P_cells [x] [] [] [x * 8] [] []) /\
  (is_cell (x * 8) -> word_effect P_floats [x] [] [] [x * 8] [] []).
Proof. exact units_in. Qed.
Print Assumptions C74_address_units.
Theorem C74_out_of_range {E : Env} : forall p g x fuel ew v rest,
  In (p, g) [(P_char_plus, x + 1); (P_cell_plus, x + 8); (P_float_plus, x + 8); (P_cells, x * 8); (P_floats, x * 8)] ->
  ~ is_cell g -> stack_has (t_s (cur v)) (x :: rest) ->
  if chk then exec_prim fuel ew p v = Panic POverflow
  else exists v' y, exec_prim fuel ew p v = Ok (tt, v') /\ wraps_to g y /\ stack_has (t_s (cur v')) (y :: rest).
Proof. exact units_out. Qed.
Print Assumptions C74_out_of_range.
Example C74_case : is_cell (5 * 8) /\ ~ is_cell ((2 ^ 62) * 8) /\
  runf P_cells [5] [] = Some ([40], []) /\ overflowed (exec_prim 0 ew_nop P_cells (ex_d [2 ^ 62])) = true /\
  out_s (exec_prim 0 ew_nop P_cells (ex_r [2 ^ 62])) = Some [0].
Proof.
  split; [unfold is_cell; lia |]. split; [unfold is_cell; lia |]. split; [vm_compute; reflexivity |].
  split; vm_compute; reflexivity.
Qed.
