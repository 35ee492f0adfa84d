(** The library's own unit tests replayed on the model (regression tests for the
    fidelity of the model; not proofs of anything general).  Generated from the
    [#[test]] functions of /repo/src.  Not included: test_marker_unmark, test_here_comma_compile_interpret, test_fsin (libm), test_fcos (libm), test_ftan (libm), test_fasin (libm), test_facos (libm), test_fatan (libm), test_fatan2 (libm). *)
From Coq Require Import ZArith List Bool String.
From Verif Require Import Base Stack Mem Parser Flt State CoreM IoM FloatM FileM Exec Boot Std.
Import ListNotations.
Open Scope Z_scope.
Open Scope m_scope.

#[local] Existing Instance env_d.

(** Calling a primitive directly, as the Rust tests do *)
Definition prim_call (p : prim) : M unit := exec_prim FUEL (execute_word FUEL) p.
Definition expect (f : vm -> bool) : M unit :=
  x <- gets f ;; if (x : bool) then ret tt else panic PExpect.
(** [VM::new()] *)
Definition fresh : M unit := fun _ => Ok (tt, booted_d).
Definition err_is (v : vm) (e : option Z) : bool :=
  match v_err v, e with
  | None, None => true
  | Some x, Some y => x =? y
  | _, _ => false
  end.
Definition passes (m : M unit) : bool :=
  match m booted_d with Ok _ => true | _ => false end.

(** src/core.rs 3261 [test_find] *)
Example test_find : passes (
  fresh ;;;
  (o <- find FUEL ([]) ;; expect (fun _ => match o with None => true | _ => false end)) ;;;
  (o <- find FUEL (b "word-not-exist") ;; expect (fun _ => match o with None => true | _ => false end)) ;;;
  (find_expect (b "noop") ;;; ret tt)
) = true.
Proof. vm_cast_no_check (@eq_refl bool true). Qed.

(** src/core.rs 3269 [test_drop] *)
Example test_drop : passes (
  fresh ;;;
  prim_call P_p_drop ;;;
  prim_call P_check_stacks ;;;
  expect (fun v => err_is v (Some (-4))) ;;;
  prim_call P_reset ;;;
  prim_call P_clear_stacks ;;;
  s_push (1) ;;;
  prim_call P_p_drop ;;;
  prim_call P_check_stacks ;;;
  expect (fun v => len (s_stk v) =? 0) ;;;
  expect (fun v => err_is v None)
) = true.
Proof. vm_cast_no_check (@eq_refl bool true). Qed.

(** src/core.rs 3284 [test_nip] *)
Example test_nip : passes (
  fresh ;;;
  prim_call P_nip ;;;
  prim_call P_check_stacks ;;;
  expect (fun v => err_is v (Some (-4))) ;;;
  prim_call P_reset ;;;
  prim_call P_clear_stacks ;;;
  s_push (1) ;;;
  prim_call P_nip ;;;
  prim_call P_check_stacks ;;;
  expect (fun v => err_is v (Some (-4))) ;;;
  prim_call P_reset ;;;
  prim_call P_clear_stacks ;;;
  s_push (1) ;;;
  s_push (2) ;;;
  prim_call P_nip ;;;
  prim_call P_check_stacks ;;;
  expect (fun v => err_is v None) ;;;
  expect (fun v => len (s_stk v) =? 1) ;;;
  expect (fun v => last (s_stk v) =? 2)
) = true.
Proof. vm_cast_no_check (@eq_refl bool true). Qed.

(** src/core.rs 3307 [test_swap] *)
Example test_swap : passes (
  fresh ;;;
  prim_call P_swap ;;;
  prim_call P_check_stacks ;;;
  prim_call P_reset ;;;
  prim_call P_clear_stacks ;;;
  s_push (1) ;;;
  prim_call P_swap ;;;
  prim_call P_check_stacks ;;;
  expect (fun v => err_is v (Some (-4))) ;;;
  prim_call P_reset ;;;
  prim_call P_clear_stacks ;;;
  s_push (1) ;;;
  s_push (2) ;;;
  prim_call P_swap ;;;
  prim_call P_check_stacks ;;;
  expect (fun v => err_is v None) ;;;
  expect (fun v => len (s_stk v) =? 2) ;;;
  (x <- s_pop ;; expect (fun _ => x =? (1))) ;;;
  (x <- s_pop ;; expect (fun _ => x =? (2))) ;;;
  prim_call P_check_stacks ;;;
  expect (fun v => err_is v None)
) = true.
Proof. vm_cast_no_check (@eq_refl bool true). Qed.

(** src/core.rs 3334 [test_dup] *)
Example test_dup : passes (
  fresh ;;;
  prim_call P_dup ;;;
  prim_call P_check_stacks ;;;
  prim_call P_reset ;;;
  prim_call P_clear_stacks ;;;
  s_push (1) ;;;
  prim_call P_dup ;;;
  prim_call P_check_stacks ;;;
  expect (fun v => err_is v None) ;;;
  expect (fun v => len (s_stk v) =? 2) ;;;
  (x <- s_pop ;; expect (fun _ => x =? (1))) ;;;
  (x <- s_pop ;; expect (fun _ => x =? (1))) ;;;
  prim_call P_check_stacks ;;;
  expect (fun v => err_is v None)
) = true.
Proof. vm_cast_no_check (@eq_refl bool true). Qed.

(** src/core.rs 3354 [test_over] *)
Example test_over : passes (
  fresh ;;;
  prim_call P_over ;;;
  prim_call P_check_stacks ;;;
  prim_call P_reset ;;;
  prim_call P_clear_stacks ;;;
  s_push (1) ;;;
  prim_call P_check_stacks ;;;
  prim_call P_over ;;;
  prim_call P_reset ;;;
  prim_call P_clear_stacks ;;;
  s_push (1) ;;;
  s_push (2) ;;;
  prim_call P_over ;;;
  prim_call P_check_stacks ;;;
  expect (fun v => err_is v None) ;;;
  expect (fun v => len (s_stk v) =? 3) ;;;
  (x <- s_pop ;; expect (fun _ => x =? (1))) ;;;
  (x <- s_pop ;; expect (fun _ => x =? (2))) ;;;
  (x <- s_pop ;; expect (fun _ => x =? (1))) ;;;
  prim_call P_check_stacks ;;;
  expect (fun v => err_is v None)
) = true.
Proof. vm_cast_no_check (@eq_refl bool true). Qed.

(** src/core.rs 3383 [test_rot] *)
Example test_rot : passes (
  fresh ;;;
  prim_call P_rot ;;;
  prim_call P_check_stacks ;;;
  prim_call P_reset ;;;
  prim_call P_clear_stacks ;;;
  s_push (1) ;;;
  prim_call P_rot ;;;
  prim_call P_check_stacks ;;;
  expect (fun v => err_is v (Some (-4))) ;;;
  prim_call P_reset ;;;
  prim_call P_clear_stacks ;;;
  s_push (1) ;;;
  s_push (2) ;;;
  prim_call P_rot ;;;
  prim_call P_check_stacks ;;;
  expect (fun v => err_is v (Some (-4))) ;;;
  prim_call P_reset ;;;
  prim_call P_clear_stacks ;;;
  s_push (1) ;;;
  s_push (2) ;;;
  s_push (3) ;;;
  prim_call P_rot ;;;
  prim_call P_check_stacks ;;;
  expect (fun v => err_is v None) ;;;
  expect (fun v => len (s_stk v) =? 3) ;;;
  (x <- s_pop ;; expect (fun _ => x =? (1))) ;;;
  (x <- s_pop ;; expect (fun _ => x =? (3))) ;;;
  (x <- s_pop ;; expect (fun _ => x =? (2))) ;;;
  prim_call P_check_stacks ;;;
  expect (fun v => err_is v None)
) = true.
Proof. vm_cast_no_check (@eq_refl bool true). Qed.

(** src/core.rs 3419 [test_pick] *)
Example test_pick : passes (
  fresh ;;;
  s_push (0) ;;;
  s_push (0) ;;;
  prim_call P_pick ;;;
  prim_call P_check_stacks ;;;
  expect (fun v => err_is v None) ;;;
  expect (fun v => bytes_eqb (as_slice (s_stk v)) [(0); (0)]) ;;;
  fresh ;;;
  s_push (1) ;;;
  s_push (0) ;;;
  s_push (1) ;;;
  prim_call P_pick ;;;
  prim_call P_check_stacks ;;;
  expect (fun v => err_is v None) ;;;
  expect (fun v => bytes_eqb (as_slice (s_stk v)) [(1); (0); (1)]) ;;;
  fresh ;;;
  s_push (2) ;;;
  s_push (1) ;;;
  s_push (0) ;;;
  s_push (2) ;;;
  prim_call P_pick ;;;
  prim_call P_check_stacks ;;;
  expect (fun v => err_is v None) ;;;
  expect (fun v => bytes_eqb (as_slice (s_stk v)) [(2); (1); (0); (2)])
) = true.
Proof. vm_cast_no_check (@eq_refl bool true). Qed.

(** src/core.rs 3449 [test_2drop] *)
Example test_2drop : passes (
  fresh ;;;
  prim_call P_two_drop ;;;
  expect (fun v => (s_underflow v)) ;;;
  prim_call P_reset ;;;
  prim_call P_clear_stacks ;;;
  s_push (1) ;;;
  prim_call P_two_drop ;;;
  expect (fun v => (s_underflow v)) ;;;
  prim_call P_reset ;;;
  prim_call P_clear_stacks ;;;
  s_push (1) ;;;
  s_push (2) ;;;
  prim_call P_two_drop ;;;
  expect (fun v => negb (s_underflow v)) ;;;
  expect (fun v => negb (s_overflow v)) ;;;
  expect (fun v => err_is v None) ;;;
  expect (fun v => len (s_stk v) =? 0)
) = true.
Proof. vm_cast_no_check (@eq_refl bool true). Qed.

(** src/core.rs 3470 [test_2dup] *)
Example test_2dup : passes (
  fresh ;;;
  prim_call P_two_dup ;;;
  expect (fun v => negb (s_underflow v)) ;;;
  prim_call P_reset ;;;
  prim_call P_clear_stacks ;;;
  s_push (1) ;;;
  prim_call P_two_dup ;;;
  expect (fun v => negb (s_underflow v)) ;;;
  prim_call P_reset ;;;
  prim_call P_clear_stacks ;;;
  s_push (1) ;;;
  s_push (2) ;;;
  prim_call P_two_dup ;;;
  expect (fun v => negb (s_underflow v)) ;;;
  expect (fun v => negb (s_overflow v)) ;;;
  expect (fun v => err_is v None) ;;;
  expect (fun v => len (s_stk v) =? 4) ;;;
  (x <- s_pop ;; expect (fun _ => x =? (2))) ;;;
  (x <- s_pop ;; expect (fun _ => x =? (1))) ;;;
  (x <- s_pop ;; expect (fun _ => x =? (2))) ;;;
  (x <- s_pop ;; expect (fun _ => x =? (1)))
) = true.
Proof. vm_cast_no_check (@eq_refl bool true). Qed.

(** src/core.rs 3495 [test_2swap] *)
Example test_2swap : passes (
  fresh ;;;
  prim_call P_two_swap ;;;
  expect (fun v => negb (s_underflow v)) ;;;
  prim_call P_reset ;;;
  prim_call P_clear_stacks ;;;
  s_push (1) ;;;
  prim_call P_two_swap ;;;
  expect (fun v => negb (s_underflow v)) ;;;
  prim_call P_reset ;;;
  prim_call P_clear_stacks ;;;
  s_push (1) ;;;
  s_push (2) ;;;
  prim_call P_two_swap ;;;
  expect (fun v => (s_underflow v)) ;;;
  prim_call P_reset ;;;
  prim_call P_clear_stacks ;;;
  s_push (1) ;;;
  s_push (2) ;;;
  s_push (3) ;;;
  prim_call P_two_swap ;;;
  expect (fun v => (s_underflow v)) ;;;
  prim_call P_reset ;;;
  prim_call P_clear_stacks ;;;
  s_push (1) ;;;
  s_push (2) ;;;
  s_push (3) ;;;
  s_push (4) ;;;
  prim_call P_two_swap ;;;
  expect (fun v => negb (s_underflow v)) ;;;
  expect (fun v => err_is v None) ;;;
  expect (fun v => len (s_stk v) =? 4) ;;;
  (x <- s_pop ;; expect (fun _ => x =? (2))) ;;;
  (x <- s_pop ;; expect (fun _ => x =? (1))) ;;;
  (x <- s_pop ;; expect (fun _ => x =? (4))) ;;;
  (x <- s_pop ;; expect (fun _ => x =? (3)))
) = true.
Proof. vm_cast_no_check (@eq_refl bool true). Qed.

(** src/core.rs 3534 [test_2over] *)
Example test_2over : passes (
  fresh ;;;
  prim_call P_two_over ;;;
  expect (fun v => negb (s_underflow v)) ;;;
  prim_call P_reset ;;;
  prim_call P_clear_stacks ;;;
  s_push (1) ;;;
  prim_call P_two_over ;;;
  expect (fun v => negb (s_underflow v)) ;;;
  prim_call P_reset ;;;
  prim_call P_clear_stacks ;;;
  s_push (1) ;;;
  s_push (2) ;;;
  prim_call P_two_over ;;;
  expect (fun v => negb (s_underflow v)) ;;;
  prim_call P_reset ;;;
  prim_call P_clear_stacks ;;;
  s_push (1) ;;;
  s_push (2) ;;;
  s_push (3) ;;;
  prim_call P_two_over ;;;
  expect (fun v => negb (s_underflow v)) ;;;
  prim_call P_reset ;;;
  prim_call P_clear_stacks ;;;
  s_push (1) ;;;
  s_push (2) ;;;
  s_push (3) ;;;
  s_push (4) ;;;
  prim_call P_two_over ;;;
  expect (fun v => negb (s_underflow v)) ;;;
  expect (fun v => negb (s_overflow v)) ;;;
  expect (fun v => err_is v None) ;;;
  expect (fun v => len (s_stk v) =? 6) ;;;
  expect (fun v => bytes_eqb (as_slice (s_stk v)) [(1); (2); (3); (4); (1); (2)])
) = true.
Proof. vm_cast_no_check (@eq_refl bool true). Qed.

(** src/core.rs 3571 [test_depth] *)
Example test_depth : passes (
  fresh ;;;
  prim_call P_depth ;;;
  prim_call P_depth ;;;
  prim_call P_depth ;;;
  expect (fun v => bytes_eqb (as_slice (s_stk v)) [(0); (1); (2)])
) = true.
Proof. vm_cast_no_check (@eq_refl bool true). Qed.

(** src/core.rs 3580 [test_one_plus] *)
Example test_one_plus : passes (
  fresh ;;;
  prim_call P_one_plus ;;;
  prim_call P_check_stacks ;;;
  expect (fun v => err_is v (Some (-4))) ;;;
  prim_call P_reset ;;;
  prim_call P_clear_stacks ;;;
  s_push (1) ;;;
  prim_call P_one_plus ;;;
  prim_call P_check_stacks ;;;
  expect (fun v => err_is v None) ;;;
  expect (fun v => len (s_stk v) =? 1) ;;;
  (x <- s_pop ;; expect (fun _ => x =? (2)))
) = true.
Proof. vm_cast_no_check (@eq_refl bool true). Qed.

(** src/core.rs 3596 [test_one_minus] *)
Example test_one_minus : passes (
  fresh ;;;
  prim_call P_one_minus ;;;
  prim_call P_check_stacks ;;;
  expect (fun v => err_is v (Some (-4))) ;;;
  prim_call P_reset ;;;
  prim_call P_clear_stacks ;;;
  s_push (2) ;;;
  prim_call P_one_minus ;;;
  prim_call P_check_stacks ;;;
  expect (fun v => err_is v None) ;;;
  expect (fun v => len (s_stk v) =? 1) ;;;
  (x <- s_pop ;; expect (fun _ => x =? (1)))
) = true.
Proof. vm_cast_no_check (@eq_refl bool true). Qed.

(** src/core.rs 3612 [test_minus] *)
Example test_minus : passes (
  fresh ;;;
  prim_call P_minus ;;;
  prim_call P_check_stacks ;;;
  expect (fun v => err_is v (Some (-4))) ;;;
  prim_call P_reset ;;;
  prim_call P_clear_stacks ;;;
  s_push (5) ;;;
  prim_call P_minus ;;;
  prim_call P_check_stacks ;;;
  expect (fun v => err_is v (Some (-4))) ;;;
  prim_call P_reset ;;;
  prim_call P_clear_stacks ;;;
  s_push (5) ;;;
  s_push (7) ;;;
  prim_call P_minus ;;;
  prim_call P_check_stacks ;;;
  expect (fun v => err_is v None) ;;;
  expect (fun v => len (s_stk v) =? 1) ;;;
  (x <- s_pop ;; expect (fun _ => x =? (-2)))
) = true.
Proof. vm_cast_no_check (@eq_refl bool true). Qed.

(** src/core.rs 3635 [test_plus] *)
Example test_plus : passes (
  fresh ;;;
  prim_call P_plus ;;;
  prim_call P_check_stacks ;;;
  expect (fun v => err_is v (Some (-4))) ;;;
  prim_call P_reset ;;;
  prim_call P_clear_stacks ;;;
  s_push (5) ;;;
  prim_call P_plus ;;;
  prim_call P_check_stacks ;;;
  expect (fun v => err_is v (Some (-4))) ;;;
  prim_call P_reset ;;;
  prim_call P_clear_stacks ;;;
  s_push (5) ;;;
  s_push (7) ;;;
  prim_call P_plus ;;;
  prim_call P_check_stacks ;;;
  expect (fun v => err_is v None) ;;;
  expect (fun v => len (s_stk v) =? 1) ;;;
  (x <- s_pop ;; expect (fun _ => x =? (12)))
) = true.
Proof. vm_cast_no_check (@eq_refl bool true). Qed.

(** src/core.rs 3658 [test_star] *)
Example test_star : passes (
  fresh ;;;
  prim_call P_star ;;;
  prim_call P_check_stacks ;;;
  expect (fun v => err_is v (Some (-4))) ;;;
  prim_call P_reset ;;;
  prim_call P_clear_stacks ;;;
  s_push (5) ;;;
  prim_call P_star ;;;
  prim_call P_check_stacks ;;;
  expect (fun v => err_is v (Some (-4))) ;;;
  prim_call P_reset ;;;
  prim_call P_clear_stacks ;;;
  s_push (5) ;;;
  s_push (7) ;;;
  prim_call P_star ;;;
  prim_call P_check_stacks ;;;
  expect (fun v => err_is v None) ;;;
  expect (fun v => len (s_stk v) =? 1) ;;;
  (x <- s_pop ;; expect (fun _ => x =? (35)))
) = true.
Proof. vm_cast_no_check (@eq_refl bool true). Qed.

(** src/core.rs 3681 [test_slash] *)
Example test_slash : passes (
  fresh ;;;
  prim_call P_slash ;;;
  prim_call P_check_stacks ;;;
  expect (fun v => err_is v (Some (-4))) ;;;
  prim_call P_reset ;;;
  prim_call P_clear_stacks ;;;
  s_push (30) ;;;
  prim_call P_slash ;;;
  prim_call P_check_stacks ;;;
  expect (fun v => err_is v (Some (-4))) ;;;
  prim_call P_reset ;;;
  prim_call P_clear_stacks ;;;
  s_push (30) ;;;
  s_push (7) ;;;
  prim_call P_slash ;;;
  prim_call P_check_stacks ;;;
  expect (fun v => err_is v None) ;;;
  expect (fun v => len (s_stk v) =? 1) ;;;
  (x <- s_pop ;; expect (fun _ => x =? (4)))
) = true.
Proof. vm_cast_no_check (@eq_refl bool true). Qed.

(** src/core.rs 3704 [test_mod] *)
Example test_mod : passes (
  fresh ;;;
  prim_call P_p_mod ;;;
  prim_call P_check_stacks ;;;
  expect (fun v => err_is v (Some (-4))) ;;;
  prim_call P_reset ;;;
  prim_call P_clear_stacks ;;;
  s_push (30) ;;;
  prim_call P_p_mod ;;;
  prim_call P_check_stacks ;;;
  expect (fun v => err_is v (Some (-4))) ;;;
  prim_call P_reset ;;;
  prim_call P_clear_stacks ;;;
  s_push (30) ;;;
  s_push (7) ;;;
  prim_call P_p_mod ;;;
  prim_call P_check_stacks ;;;
  expect (fun v => err_is v None) ;;;
  expect (fun v => len (s_stk v) =? 1) ;;;
  (x <- s_pop ;; expect (fun _ => x =? (2)))
) = true.
Proof. vm_cast_no_check (@eq_refl bool true). Qed.

(** src/core.rs 3727 [test_slash_mod] *)
Example test_slash_mod : passes (
  fresh ;;;
  prim_call P_slash_mod ;;;
  prim_call P_check_stacks ;;;
  expect (fun v => err_is v (Some (-4))) ;;;
  prim_call P_reset ;;;
  prim_call P_clear_stacks ;;;
  s_push (30) ;;;
  prim_call P_slash_mod ;;;
  prim_call P_check_stacks ;;;
  expect (fun v => err_is v (Some (-4))) ;;;
  prim_call P_reset ;;;
  prim_call P_clear_stacks ;;;
  s_push (30) ;;;
  s_push (7) ;;;
  prim_call P_slash_mod ;;;
  prim_call P_check_stacks ;;;
  expect (fun v => err_is v None) ;;;
  expect (fun v => len (s_stk v) =? 2) ;;;
  (x <- s_pop ;; expect (fun _ => x =? (4))) ;;;
  (x <- s_pop ;; expect (fun _ => x =? (2)))
) = true.
Proof. vm_cast_no_check (@eq_refl bool true). Qed.

(** src/core.rs 3751 [test_abs] *)
Example test_abs : passes (
  fresh ;;;
  s_push (-30) ;;;
  prim_call P_abs ;;;
  expect (fun v => err_is v None) ;;;
  expect (fun v => len (s_stk v) =? 1) ;;;
  (x <- s_pop ;; expect (fun _ => x =? (30)))
) = true.
Proof. vm_cast_no_check (@eq_refl bool true). Qed.

(** src/core.rs 3761 [test_negate] *)
Example test_negate : passes (
  fresh ;;;
  prim_call P_negate ;;;
  prim_call P_check_stacks ;;;
  expect (fun v => err_is v (Some (-4))) ;;;
  prim_call P_reset ;;;
  prim_call P_clear_stacks ;;;
  s_push (30) ;;;
  prim_call P_negate ;;;
  prim_call P_check_stacks ;;;
  expect (fun v => err_is v None) ;;;
  expect (fun v => len (s_stk v) =? 1) ;;;
  (x <- s_pop ;; expect (fun _ => x =? (-30)))
) = true.
Proof. vm_cast_no_check (@eq_refl bool true). Qed.

(** src/core.rs 3777 [test_zero_less] *)
Example test_zero_less : passes (
  fresh ;;;
  prim_call P_zero_less ;;;
  prim_call P_check_stacks ;;;
  expect (fun v => err_is v (Some (-4))) ;;;
  prim_call P_reset ;;;
  prim_call P_clear_stacks ;;;
  s_push (-1) ;;;
  prim_call P_zero_less ;;;
  prim_call P_check_stacks ;;;
  expect (fun v => err_is v None) ;;;
  expect (fun v => len (s_stk v) =? 1) ;;;
  (x <- s_pop ;; expect (fun _ => x =? (-1))) ;;;
  s_push (0) ;;;
  prim_call P_zero_less ;;;
  prim_call P_check_stacks ;;;
  expect (fun v => err_is v None) ;;;
  expect (fun v => len (s_stk v) =? 1) ;;;
  (x <- s_pop ;; expect (fun _ => x =? (0)))
) = true.
Proof. vm_cast_no_check (@eq_refl bool true). Qed.

(** src/core.rs 3799 [test_zero_equals] *)
Example test_zero_equals : passes (
  fresh ;;;
  prim_call P_zero_equals ;;;
  prim_call P_check_stacks ;;;
  expect (fun v => err_is v (Some (-4))) ;;;
  prim_call P_reset ;;;
  prim_call P_clear_stacks ;;;
  s_push (0) ;;;
  prim_call P_zero_equals ;;;
  prim_call P_check_stacks ;;;
  expect (fun v => err_is v None) ;;;
  expect (fun v => len (s_stk v) =? 1) ;;;
  (x <- s_pop ;; expect (fun _ => x =? (-1))) ;;;
  s_push (-1) ;;;
  prim_call P_zero_equals ;;;
  prim_call P_check_stacks ;;;
  expect (fun v => err_is v None) ;;;
  expect (fun v => len (s_stk v) =? 1) ;;;
  (x <- s_pop ;; expect (fun _ => x =? (0))) ;;;
  s_push (1) ;;;
  prim_call P_zero_equals ;;;
  prim_call P_check_stacks ;;;
  expect (fun v => err_is v None) ;;;
  expect (fun v => len (s_stk v) =? 1) ;;;
  (x <- s_pop ;; expect (fun _ => x =? (0)))
) = true.
Proof. vm_cast_no_check (@eq_refl bool true). Qed.

(** src/core.rs 3827 [test_zero_greater] *)
Example test_zero_greater : passes (
  fresh ;;;
  prim_call P_zero_greater ;;;
  prim_call P_check_stacks ;;;
  expect (fun v => err_is v (Some (-4))) ;;;
  prim_call P_reset ;;;
  prim_call P_clear_stacks ;;;
  s_push (1) ;;;
  prim_call P_zero_greater ;;;
  prim_call P_check_stacks ;;;
  expect (fun v => err_is v None) ;;;
  expect (fun v => len (s_stk v) =? 1) ;;;
  (x <- s_pop ;; expect (fun _ => x =? (-1))) ;;;
  s_push (0) ;;;
  prim_call P_zero_greater ;;;
  prim_call P_check_stacks ;;;
  expect (fun v => err_is v None) ;;;
  expect (fun v => len (s_stk v) =? 1) ;;;
  (x <- s_pop ;; expect (fun _ => x =? (0)))
) = true.
Proof. vm_cast_no_check (@eq_refl bool true). Qed.

(** src/core.rs 3849 [test_zero_not_equals] *)
Example test_zero_not_equals : passes (
  fresh ;;;
  prim_call P_zero_not_equals ;;;
  prim_call P_check_stacks ;;;
  expect (fun v => err_is v (Some (-4))) ;;;
  prim_call P_reset ;;;
  prim_call P_clear_stacks ;;;
  s_push (0) ;;;
  prim_call P_zero_not_equals ;;;
  prim_call P_check_stacks ;;;
  expect (fun v => err_is v None) ;;;
  expect (fun v => len (s_stk v) =? 1) ;;;
  (x <- s_pop ;; expect (fun _ => x =? (0))) ;;;
  s_push (-1) ;;;
  prim_call P_zero_not_equals ;;;
  prim_call P_check_stacks ;;;
  expect (fun v => err_is v None) ;;;
  expect (fun v => len (s_stk v) =? 1) ;;;
  (x <- s_pop ;; expect (fun _ => x =? (-1))) ;;;
  s_push (1) ;;;
  prim_call P_zero_not_equals ;;;
  prim_call P_check_stacks ;;;
  expect (fun v => err_is v None) ;;;
  expect (fun v => len (s_stk v) =? 1) ;;;
  (x <- s_pop ;; expect (fun _ => x =? (-1)))
) = true.
Proof. vm_cast_no_check (@eq_refl bool true). Qed.

(** src/core.rs 3877 [test_less_than] *)
Example test_less_than : passes (
  fresh ;;;
  prim_call P_less_than ;;;
  prim_call P_check_stacks ;;;
  expect (fun v => err_is v (Some (-4))) ;;;
  prim_call P_reset ;;;
  prim_call P_clear_stacks ;;;
  s_push (-1) ;;;
  prim_call P_less_than ;;;
  prim_call P_check_stacks ;;;
  expect (fun v => err_is v (Some (-4))) ;;;
  prim_call P_reset ;;;
  prim_call P_clear_stacks ;;;
  s_push (-1) ;;;
  s_push (0) ;;;
  prim_call P_less_than ;;;
  prim_call P_check_stacks ;;;
  expect (fun v => err_is v None) ;;;
  expect (fun v => len (s_stk v) =? 1) ;;;
  (x <- s_pop ;; expect (fun _ => x =? (-1))) ;;;
  s_push (0) ;;;
  s_push (0) ;;;
  prim_call P_less_than ;;;
  prim_call P_check_stacks ;;;
  expect (fun v => err_is v None) ;;;
  expect (fun v => len (s_stk v) =? 1) ;;;
  (x <- s_pop ;; expect (fun _ => x =? (0)))
) = true.
Proof. vm_cast_no_check (@eq_refl bool true). Qed.

(** src/core.rs 3907 [test_equals] *)
Example test_equals : passes (
  fresh ;;;
  prim_call P_equals ;;;
  prim_call P_check_stacks ;;;
  expect (fun v => err_is v (Some (-4))) ;;;
  prim_call P_reset ;;;
  prim_call P_clear_stacks ;;;
  s_push (0) ;;;
  prim_call P_equals ;;;
  prim_call P_check_stacks ;;;
  expect (fun v => err_is v (Some (-4))) ;;;
  prim_call P_reset ;;;
  prim_call P_clear_stacks ;;;
  s_push (0) ;;;
  s_push (0) ;;;
  prim_call P_equals ;;;
  prim_call P_check_stacks ;;;
  expect (fun v => err_is v None) ;;;
  expect (fun v => len (s_stk v) =? 1) ;;;
  (x <- s_pop ;; expect (fun _ => x =? (-1))) ;;;
  s_push (-1) ;;;
  s_push (0) ;;;
  prim_call P_equals ;;;
  prim_call P_check_stacks ;;;
  expect (fun v => err_is v None) ;;;
  expect (fun v => len (s_stk v) =? 1) ;;;
  (x <- s_pop ;; expect (fun _ => x =? (0))) ;;;
  s_push (1) ;;;
  s_push (0) ;;;
  prim_call P_equals ;;;
  prim_call P_check_stacks ;;;
  expect (fun v => err_is v None) ;;;
  expect (fun v => len (s_stk v) =? 1) ;;;
  (x <- s_pop ;; expect (fun _ => x =? (0)))
) = true.
Proof. vm_cast_no_check (@eq_refl bool true). Qed.

(** src/core.rs 3944 [test_greater_than] *)
Example test_greater_than : passes (
  fresh ;;;
  prim_call P_greater_than ;;;
  prim_call P_check_stacks ;;;
  expect (fun v => err_is v (Some (-4))) ;;;
  prim_call P_reset ;;;
  prim_call P_clear_stacks ;;;
  s_push (1) ;;;
  prim_call P_greater_than ;;;
  prim_call P_check_stacks ;;;
  expect (fun v => err_is v (Some (-4))) ;;;
  prim_call P_reset ;;;
  prim_call P_clear_stacks ;;;
  s_push (1) ;;;
  s_push (0) ;;;
  prim_call P_greater_than ;;;
  prim_call P_check_stacks ;;;
  expect (fun v => err_is v None) ;;;
  expect (fun v => len (s_stk v) =? 1) ;;;
  (x <- s_pop ;; expect (fun _ => x =? (-1))) ;;;
  s_push (0) ;;;
  s_push (0) ;;;
  prim_call P_greater_than ;;;
  prim_call P_check_stacks ;;;
  expect (fun v => err_is v None) ;;;
  expect (fun v => len (s_stk v) =? 1) ;;;
  (x <- s_pop ;; expect (fun _ => x =? (0)))
) = true.
Proof. vm_cast_no_check (@eq_refl bool true). Qed.

(** src/core.rs 3974 [test_not_equals] *)
Example test_not_equals : passes (
  fresh ;;;
  prim_call P_not_equals ;;;
  prim_call P_check_stacks ;;;
  expect (fun v => err_is v (Some (-4))) ;;;
  prim_call P_reset ;;;
  prim_call P_clear_stacks ;;;
  s_push (0) ;;;
  prim_call P_not_equals ;;;
  prim_call P_check_stacks ;;;
  expect (fun v => err_is v (Some (-4))) ;;;
  prim_call P_reset ;;;
  prim_call P_clear_stacks ;;;
  s_push (0) ;;;
  s_push (0) ;;;
  prim_call P_not_equals ;;;
  prim_call P_check_stacks ;;;
  expect (fun v => err_is v None) ;;;
  expect (fun v => len (s_stk v) =? 1) ;;;
  (x <- s_pop ;; expect (fun _ => x =? (0))) ;;;
  s_push (-1) ;;;
  s_push (0) ;;;
  prim_call P_not_equals ;;;
  prim_call P_check_stacks ;;;
  expect (fun v => err_is v None) ;;;
  expect (fun v => len (s_stk v) =? 1) ;;;
  (x <- s_pop ;; expect (fun _ => x =? (-1))) ;;;
  s_push (1) ;;;
  s_push (0) ;;;
  prim_call P_not_equals ;;;
  prim_call P_check_stacks ;;;
  expect (fun v => err_is v None) ;;;
  expect (fun v => len (s_stk v) =? 1) ;;;
  (x <- s_pop ;; expect (fun _ => x =? (-1)))
) = true.
Proof. vm_cast_no_check (@eq_refl bool true). Qed.

(** src/core.rs 4011 [test_within] *)
Example test_within : passes (
  fresh ;;;
  prim_call P_within ;;;
  prim_call P_check_stacks ;;;
  expect (fun v => err_is v (Some (-4))) ;;;
  prim_call P_reset ;;;
  prim_call P_clear_stacks ;;;
  s_push (1) ;;;
  prim_call P_within ;;;
  prim_call P_check_stacks ;;;
  expect (fun v => err_is v (Some (-4))) ;;;
  prim_call P_reset ;;;
  prim_call P_clear_stacks ;;;
  s_push (1) ;;;
  s_push (1) ;;;
  prim_call P_within ;;;
  prim_call P_check_stacks ;;;
  expect (fun v => err_is v (Some (-4))) ;;;
  prim_call P_reset ;;;
  prim_call P_clear_stacks ;;;
  s_push (1) ;;;
  s_push (1) ;;;
  s_push (2) ;;;
  prim_call P_within ;;;
  prim_call P_check_stacks ;;;
  expect (fun v => err_is v None) ;;;
  expect (fun v => len (s_stk v) =? 1) ;;;
  (x <- s_pop ;; expect (fun _ => x =? (-1))) ;;;
  s_push (1) ;;;
  s_push (0) ;;;
  s_push (1) ;;;
  prim_call P_within ;;;
  prim_call P_check_stacks ;;;
  expect (fun v => err_is v None) ;;;
  expect (fun v => len (s_stk v) =? 1) ;;;
  (x <- s_pop ;; expect (fun _ => x =? (0))) ;;;
  s_push (0) ;;;
  s_push (1) ;;;
  s_push (2) ;;;
  prim_call P_within ;;;
  prim_call P_check_stacks ;;;
  expect (fun v => err_is v None) ;;;
  expect (fun v => len (s_stk v) =? 1) ;;;
  (x <- s_pop ;; expect (fun _ => x =? (0))) ;;;
  s_push (3) ;;;
  s_push (1) ;;;
  s_push (2) ;;;
  prim_call P_within ;;;
  prim_call P_check_stacks ;;;
  expect (fun v => err_is v None) ;;;
  expect (fun v => len (s_stk v) =? 1) ;;;
  (x <- s_pop ;; expect (fun _ => x =? (0)))
) = true.
Proof. vm_cast_no_check (@eq_refl bool true). Qed.

(** src/core.rs 4066 [test_invert] *)
Example test_invert : passes (
  fresh ;;;
  prim_call P_invert ;;;
  prim_call P_check_stacks ;;;
  expect (fun v => err_is v (Some (-4))) ;;;
  prim_call P_reset ;;;
  prim_call P_clear_stacks ;;;
  s_push (707) ;;;
  prim_call P_invert ;;;
  prim_call P_check_stacks ;;;
  expect (fun v => err_is v None) ;;;
  expect (fun v => len (s_stk v) =? 1) ;;;
  (x <- s_pop ;; expect (fun _ => x =? (-708)))
) = true.
Proof. vm_cast_no_check (@eq_refl bool true). Qed.

(** src/core.rs 4082 [test_and] *)
Example test_and : passes (
  fresh ;;;
  s_push (707) ;;;
  s_push (007) ;;;
  prim_call P_and ;;;
  prim_call P_check_stacks ;;;
  expect (fun v => err_is v None) ;;;
  expect (fun v => negb (s_overflow v)) ;;;
  expect (fun v => negb (s_underflow v)) ;;;
  expect (fun v => len (s_stk v) =? 1) ;;;
  (x <- s_pop ;; expect (fun _ => x =? (3)))
) = true.
Proof. vm_cast_no_check (@eq_refl bool true). Qed.

(** src/core.rs 4096 [test_or] *)
Example test_or : passes (
  fresh ;;;
  prim_call P_or ;;;
  prim_call P_check_stacks ;;;
  expect (fun v => err_is v (Some (-4))) ;;;
  prim_call P_reset ;;;
  prim_call P_clear_stacks ;;;
  s_push (707) ;;;
  prim_call P_or ;;;
  prim_call P_check_stacks ;;;
  expect (fun v => err_is v (Some (-4))) ;;;
  prim_call P_reset ;;;
  prim_call P_clear_stacks ;;;
  s_push (707) ;;;
  s_push (07) ;;;
  prim_call P_or ;;;
  prim_call P_check_stacks ;;;
  expect (fun v => err_is v None) ;;;
  expect (fun v => len (s_stk v) =? 1) ;;;
  (x <- s_pop ;; expect (fun _ => x =? (711)))
) = true.
Proof. vm_cast_no_check (@eq_refl bool true). Qed.

(** src/core.rs 4119 [test_xor] *)
Example test_xor : passes (
  fresh ;;;
  prim_call P_xor ;;;
  prim_call P_check_stacks ;;;
  expect (fun v => err_is v (Some (-4))) ;;;
  prim_call P_reset ;;;
  prim_call P_clear_stacks ;;;
  s_push (707) ;;;
  prim_call P_xor ;;;
  prim_call P_check_stacks ;;;
  expect (fun v => err_is v (Some (-4))) ;;;
  prim_call P_reset ;;;
  prim_call P_clear_stacks ;;;
  s_push (707) ;;;
  s_push (07) ;;;
  prim_call P_xor ;;;
  prim_call P_check_stacks ;;;
  expect (fun v => err_is v None) ;;;
  expect (fun v => len (s_stk v) =? 1) ;;;
  (x <- s_pop ;; expect (fun _ => x =? (708)))
) = true.
Proof. vm_cast_no_check (@eq_refl bool true). Qed.

(** src/core.rs 4142 [test_lshift] *)
Example test_lshift : passes (
  fresh ;;;
  prim_call P_lshift ;;;
  prim_call P_check_stacks ;;;
  expect (fun v => err_is v (Some (-4))) ;;;
  prim_call P_reset ;;;
  prim_call P_clear_stacks ;;;
  s_push (1) ;;;
  prim_call P_lshift ;;;
  prim_call P_check_stacks ;;;
  expect (fun v => err_is v (Some (-4))) ;;;
  prim_call P_reset ;;;
  prim_call P_clear_stacks ;;;
  s_push (1) ;;;
  s_push (1) ;;;
  prim_call P_lshift ;;;
  prim_call P_check_stacks ;;;
  expect (fun v => err_is v None) ;;;
  expect (fun v => len (s_stk v) =? 1) ;;;
  (x <- s_pop ;; expect (fun _ => x =? (2))) ;;;
  s_push (1) ;;;
  s_push (2) ;;;
  prim_call P_lshift ;;;
  prim_call P_check_stacks ;;;
  expect (fun v => err_is v None) ;;;
  expect (fun v => len (s_stk v) =? 1) ;;;
  (x <- s_pop ;; expect (fun _ => x =? (4)))
) = true.
Proof. vm_cast_no_check (@eq_refl bool true). Qed.

(** src/core.rs 4172 [test_rshift] *)
Example test_rshift : passes (
  fresh ;;;
  prim_call P_rshift ;;;
  prim_call P_check_stacks ;;;
  expect (fun v => err_is v (Some (-4))) ;;;
  prim_call P_reset ;;;
  prim_call P_clear_stacks ;;;
  s_push (8) ;;;
  prim_call P_rshift ;;;
  prim_call P_check_stacks ;;;
  expect (fun v => err_is v (Some (-4))) ;;;
  prim_call P_reset ;;;
  prim_call P_clear_stacks ;;;
  s_push (8) ;;;
  s_push (1) ;;;
  prim_call P_rshift ;;;
  prim_call P_check_stacks ;;;
  expect (fun v => err_is v None) ;;;
  expect (fun v => len (s_stk v) =? 1) ;;;
  (x <- s_pop ;; expect (fun _ => x =? (4))) ;;;
  s_push (-1) ;;;
  s_push (1) ;;;
  prim_call P_rshift ;;;
  prim_call P_check_stacks ;;;
  expect (fun v => err_is v None) ;;;
  expect (fun v => len (s_stk v) =? 1) ;;;
  (x <- s_pop ;; expect (fun _ => 0 <? x))
) = true.
Proof. vm_cast_no_check (@eq_refl bool true). Qed.

(** src/core.rs 4202 [test_parse_word] *)
Example test_parse_word : passes (
  fresh ;;;
  set_source (b "hello world" ++ [9] ++ [13] ++ [10] ++ b """") ;;;
  prim_call P_parse_word ;;;
  expect (fun v => match v_tkn v with Some t => bytes_eqb t (b "hello") | None => false end) ;;;
  expect (fun v => st_idx (st v) =? 5) ;;;
  prim_call P_parse_word ;;;
  expect (fun v => match v_tkn v with Some t => bytes_eqb t (b "world") | None => false end) ;;;
  expect (fun v => st_idx (st v) =? 11) ;;;
  prim_call P_parse_word ;;;
  expect (fun v => match v_tkn v with Some t => bytes_eqb t (b """") | None => false end)
) = true.
Proof. vm_cast_no_check (@eq_refl bool true). Qed.

(** src/core.rs 4216 [test_evaluate_input] *)
Example test_evaluate_input : passes (
  fresh ;;;
  set_source (b ">r") ;;;
  evaluate_input FUEL ;;;
  expect (fun v => err_is v (Some (-14))) ;;;
  prim_call P_reset ;;;
  prim_call P_clear_stacks ;;;
  set_source (b "drop") ;;;
  evaluate_input FUEL ;;;
  expect (fun v => err_is v (Some (-4))) ;;;
  prim_call P_reset ;;;
  prim_call P_clear_stacks ;;;
  set_source (b ": 4drop drop drop drop drop ; 4drop") ;;;
  evaluate_input FUEL ;;;
  expect (fun v => err_is v (Some (-4))) ;;;
  prim_call P_reset ;;;
  prim_call P_clear_stacks ;;;
  set_source (b "xdrop") ;;;
  evaluate_input FUEL ;;;
  expect (fun v => err_is v (Some (-13))) ;;;
  prim_call P_reset ;;;
  prim_call P_clear_stacks ;;;
  set_source (b "false true dup 1+ 2 -3") ;;;
  evaluate_input FUEL ;;;
  expect (fun v => err_is v None) ;;;
  expect (fun v => len (s_stk v) =? 5) ;;;
  (x <- s_pop ;; expect (fun _ => x =? (-3))) ;;;
  (x <- s_pop ;; expect (fun _ => x =? (2))) ;;;
  (x <- s_pop ;; expect (fun _ => x =? (0))) ;;;
  (x <- s_pop ;; expect (fun _ => x =? (-1))) ;;;
  (x <- s_pop ;; expect (fun _ => x =? (0)))
) = true.
Proof. vm_cast_no_check (@eq_refl bool true). Qed.

(** src/core.rs 4255 [test_push_source] *)
Example test_push_source : passes (
  fresh ;;;
  set_source (b ": x") ;;;
  push_source (b " ") ;;;
  push_source (b "1") ;;;
  push_source (b " ") ;;;
  push_source (b ";") ;;;
  (o <- get_inbuf ;; expect (fun _ => match o with Some t => bytes_eqb t (b ": x 1 ;") | None => false end))
) = true.
Proof. vm_cast_no_check (@eq_refl bool true). Qed.

(** src/core.rs 4266 [test_colon_and_semi_colon] *)
Example test_colon_and_semi_colon : passes (
  fresh ;;;
  set_source (b ":") ;;;
  evaluate_input FUEL ;;;
  expect (fun v => err_is v (Some (-39))) ;;;
  prim_call P_reset ;;;
  prim_call P_clear_stacks ;;;
  set_source (b ": 2+3 2 3 + ; 2+3") ;;;
  evaluate_input FUEL ;;;
  expect (fun v => err_is v None) ;;;
  expect (fun v => len (s_stk v) =? 1) ;;;
  (x <- s_pop ;; expect (fun _ => x =? (5)))
) = true.
Proof. vm_cast_no_check (@eq_refl bool true). Qed.

(** src/core.rs 4283 [test_constant] *)
Example test_constant : passes (
  fresh ;;;
  set_source (b "constant") ;;;
  evaluate_input FUEL ;;;
  prim_call P_reset ;;;
  prim_call P_clear_stacks ;;;
  set_source (b "5 constant x x x") ;;;
  evaluate_input FUEL ;;;
  expect (fun v => err_is v None) ;;;
  expect (fun v => len (s_stk v) =? 2) ;;;
  (x <- s_pop ;; expect (fun _ => x =? (5))) ;;;
  (x <- s_pop ;; expect (fun _ => x =? (5)))
) = true.
Proof. vm_cast_no_check (@eq_refl bool true). Qed.

(** src/core.rs 4302 [test_constant_in_colon] *)
Example test_constant_in_colon : passes (
  fresh ;;;
  set_source (b "77 constant x  : 2x x 2 * ;  2x") ;;;
  evaluate_input FUEL ;;;
  run FUEL ;;;
  (x <- s_pop ;; expect (fun _ => x =? (154))) ;;;
  expect (fun v => len (s_stk v) =? 0)
) = true.
Proof. vm_cast_no_check (@eq_refl bool true). Qed.

(** src/core.rs 4314 [test_create_and_store_fetch] *)
Example test_create_and_store_fetch : passes (
  fresh ;;;
  set_source (b "@") ;;;
  evaluate_input FUEL ;;;
  expect (fun v => err_is v (Some (-9))) ;;;
  prim_call P_reset ;;;
  prim_call P_clear_stacks ;;;
  set_source (b "!") ;;;
  evaluate_input FUEL ;;;
  expect (fun v => err_is v (Some (-9))) ;;;
  prim_call P_reset ;;;
  prim_call P_clear_stacks ;;;
  set_source (b "create x  1 cells allot  x !") ;;;
  evaluate_input FUEL ;;;
  expect (fun v => err_is v (Some (-4))) ;;;
  prim_call P_reset ;;;
  prim_call P_clear_stacks ;;;
  set_source (b "create x  1 cells allot  x @  3 x !  x @") ;;;
  evaluate_input FUEL ;;;
  expect (fun v => err_is v None) ;;;
  expect (fun v => len (s_stk v) =? 2) ;;;
  (x <- s_pop ;; expect (fun _ => x =? (3))) ;;;
  (x <- s_pop ;; expect (fun _ => x =? (0)))
) = true.
Proof. vm_cast_no_check (@eq_refl bool true). Qed.

(** src/core.rs 4344 [test_create_and_fetch_in_colon] *)
Example test_create_and_fetch_in_colon : passes (
  fresh ;;;
  set_source (b "create x  1 cells allot  7 x !  : x@ x @ ;  x@") ;;;
  evaluate_input FUEL ;;;
  run FUEL ;;;
  (x <- s_pop ;; expect (fun _ => x =? (7))) ;;;
  expect (fun v => len (s_stk v) =? 0)
) = true.
Proof. vm_cast_no_check (@eq_refl bool true). Qed.

(** src/core.rs 4357 [test_create_in_colon] *)
Example test_create_in_colon : passes (
  fresh ;;;
  set_source (b "create x 7 ,  : x@ x @ ;  x@") ;;;
  evaluate_input FUEL ;;;
  run FUEL ;;;
  (x <- s_pop ;; expect (fun _ => x =? (7))) ;;;
  expect (fun v => len (s_stk v) =? 0)
) = true.
Proof. vm_cast_no_check (@eq_refl bool true). Qed.

(** src/core.rs 4369 [test_char_plus] *)
Example test_char_plus : passes (
  fresh ;;;
  prim_call P_char_plus ;;;
  prim_call P_check_stacks ;;;
  expect (fun v => err_is v (Some (-4))) ;;;
  prim_call P_reset ;;;
  set_source (b "2 char+") ;;;
  evaluate_input FUEL ;;;
  expect (fun v => err_is v None) ;;;
  expect (fun v => bytes_eqb (as_slice (s_stk v)) [(3)])
) = true.
Proof. vm_cast_no_check (@eq_refl bool true). Qed.

(** src/core.rs 4383 [test_cell_plus_and_cells] *)
Example test_cell_plus_and_cells : passes (
  fresh ;;;
  prim_call P_cell_plus ;;;
  prim_call P_check_stacks ;;;
  expect (fun v => err_is v (Some (-4))) ;;;
  prim_call P_reset ;;;
  prim_call P_cells ;;;
  prim_call P_check_stacks ;;;
  expect (fun v => err_is v (Some (-4))) ;;;
  prim_call P_reset ;;;
  set_source (b "2 cell+  9 cells") ;;;
  evaluate_input FUEL ;;;
  expect (fun v => err_is v None) ;;;
  expect (fun v => bytes_eqb (as_slice (s_stk v)) [10; 72])
) = true.
Proof. vm_cast_no_check (@eq_refl bool true). Qed.

(** src/core.rs 4406 [test_tick] *)
Example test_tick : passes (
  fresh ;;;
  prim_call P_tick ;;;
  expect (fun v => err_is v (Some (-39))) ;;;
  prim_call P_reset ;;;
  set_source (b "' xdrop") ;;;
  evaluate_input FUEL ;;;
  expect (fun v => err_is v (Some (-13))) ;;;
  prim_call P_reset ;;;
  prim_call P_clear_stacks ;;;
  set_source (b "' drop") ;;;
  evaluate_input FUEL ;;;
  expect (fun v => err_is v None) ;;;
  expect (fun v => len (s_stk v) =? 1)
) = true.
Proof. vm_cast_no_check (@eq_refl bool true). Qed.

(** src/core.rs 4426 [test_execute] *)
Example test_execute : passes (
  fresh ;;;
  prim_call P_execute ;;;
  prim_call P_check_stacks ;;;
  expect (fun v => err_is v (Some (-21))) ;;;
  prim_call P_reset ;;;
  prim_call P_clear_stacks ;;;
  set_source (b "' drop") ;;;
  evaluate_input FUEL ;;;
  prim_call P_execute ;;;
  prim_call P_check_stacks ;;;
  expect (fun v => err_is v (Some (-4))) ;;;
  prim_call P_reset ;;;
  prim_call P_clear_stacks ;;;
  set_source (b "1 2  ' swap execute") ;;;
  evaluate_input FUEL ;;;
  expect (fun v => err_is v None) ;;;
  expect (fun v => len (s_stk v) =? 2) ;;;
  (x <- s_pop ;; expect (fun _ => x =? (1))) ;;;
  (x <- s_pop ;; expect (fun _ => x =? (2)))
) = true.
Proof. vm_cast_no_check (@eq_refl bool true). Qed.

(** src/core.rs 4452 [test_here_allot] *)
Example test_here_allot : passes (
  fresh ;;;
  prim_call P_allot ;;;
  prim_call P_check_stacks ;;;
  expect (fun v => err_is v (Some (-4))) ;;;
  prim_call P_reset ;;;
  set_source (b "here 2 cells allot here -") ;;;
  evaluate_input FUEL ;;;
  expect (fun v => err_is v None) ;;;
  expect (fun v => len (s_stk v) =? 1) ;;;
  (x <- s_pop ;; expect (fun _ => x =? -16))
) = true.
Proof. vm_cast_no_check (@eq_refl bool true). Qed.

(** src/core.rs 4471 [test_to_r_r_fetch_r_from] *)
Example test_to_r_r_fetch_r_from : passes (
  fresh ;;;
  set_source (b ": t 3 >r 2 r@ + r> + ; t") ;;;
  evaluate_input FUEL ;;;
  expect (fun v => err_is v None) ;;;
  expect (fun v => len (s_stk v) =? 1) ;;;
  (x <- s_pop ;; expect (fun _ => x =? (8)))
) = true.
Proof. vm_cast_no_check (@eq_refl bool true). Qed.

(** src/core.rs 4481 [test_two_to_r_two_r_fetch_two_r_from] *)
Example test_two_to_r_two_r_fetch_two_r_from : passes (
  fresh ;;;
  set_source (b ": t 1 2 2>r 2r@ + 2r> - * ; t") ;;;
  evaluate_input FUEL ;;;
  expect (fun v => err_is v None) ;;;
  expect (fun v => len (s_stk v) =? 1) ;;;
  (x <- s_pop ;; expect (fun _ => x =? (-3)))
) = true.
Proof. vm_cast_no_check (@eq_refl bool true). Qed.

(** src/core.rs 4491 [test_if_then] *)
Example test_if_then : passes (
  fresh ;;;
  set_source (b ": t5 if ;") ;;;
  evaluate_input FUEL ;;;
  expect (fun v => err_is v (Some (-22))) ;;;
  prim_call P_reset ;;;
  prim_call P_clear_stacks ;;;
  set_source (b ": t4 then ; t4") ;;;
  evaluate_input FUEL ;;;
  expect (fun v => err_is v (Some (-22))) ;;;
  prim_call P_reset ;;;
  prim_call P_clear_stacks ;;;
  set_source (b ": t1 0 dup if drop -1 then ; t1") ;;;
  evaluate_input FUEL ;;;
  expect (fun v => err_is v None) ;;;
  expect (fun v => len (s_stk v) =? 1) ;;;
  (x <- s_pop ;; expect (fun _ => x =? (0))) ;;;
  prim_call P_reset ;;;
  prim_call P_clear_stacks ;;;
  set_source (b ": t1 -1 dup if drop -1 then ; t1") ;;;
  evaluate_input FUEL ;;;
  expect (fun v => err_is v None) ;;;
  expect (fun v => len (s_stk v) =? 1) ;;;
  (x <- s_pop ;; expect (fun _ => x =? (-1)))
) = true.
Proof. vm_cast_no_check (@eq_refl bool true). Qed.

(** src/core.rs 4522 [test_if_else_then] *)
Example test_if_else_then : passes (
  fresh ;;;
  set_source (b ": t3 else then ;") ;;;
  evaluate_input FUEL ;;;
  expect (fun v => err_is v (Some (-22))) ;;;
  prim_call P_reset ;;;
  prim_call P_clear_stacks ;;;
  set_source (b ": t1 0 if true else false then ; t1") ;;;
  evaluate_input FUEL ;;;
  expect (fun v => err_is v None) ;;;
  expect (fun v => len (s_stk v) =? 1) ;;;
  (x <- s_pop ;; expect (fun _ => x =? (0))) ;;;
  set_source (b ": t2 1 if true else false then ; t2") ;;;
  evaluate_input FUEL ;;;
  expect (fun v => err_is v None) ;;;
  expect (fun v => len (s_stk v) =? 1) ;;;
  (x <- s_pop ;; expect (fun _ => x =? (-1)))
) = true.
Proof. vm_cast_no_check (@eq_refl bool true). Qed.

(** src/core.rs 4544 [test_begin_again] *)
Example test_begin_again : passes (
  fresh ;;;
  set_source (b ": t3 begin ;") ;;;
  evaluate_input FUEL ;;;
  expect (fun v => err_is v (Some (-22))) ;;;
  prim_call P_reset ;;;
  prim_call P_clear_stacks ;;;
  set_source (b ": t2 again ;") ;;;
  evaluate_input FUEL ;;;
  expect (fun v => err_is v (Some (-22))) ;;;
  prim_call P_reset ;;;
  prim_call P_clear_stacks ;;;
  set_source (b ": t1 0 begin 1+ dup 3 = if exit then again ; t1") ;;;
  evaluate_input FUEL ;;;
  expect (fun v => err_is v None) ;;;
  expect (fun v => len (s_stk v) =? 1) ;;;
  (x <- s_pop ;; expect (fun _ => x =? (3)))
) = true.
Proof. vm_cast_no_check (@eq_refl bool true). Qed.

(** src/core.rs 4567 [test_begin_while_repeat] *)
Example test_begin_while_repeat : passes (
  fresh ;;;
  set_source (b ": t1 begin ;") ;;;
  evaluate_input FUEL ;;;
  expect (fun v => err_is v (Some (-22))) ;;;
  prim_call P_reset ;;;
  prim_call P_clear_stacks ;;;
  set_source (b ": t2 while ;") ;;;
  evaluate_input FUEL ;;;
  expect (fun v => err_is v (Some (-22))) ;;;
  prim_call P_reset ;;;
  prim_call P_clear_stacks ;;;
  set_source (b ": t3 repeat ;") ;;;
  evaluate_input FUEL ;;;
  expect (fun v => err_is v (Some (-22))) ;;;
  prim_call P_reset ;;;
  prim_call P_clear_stacks ;;;
  set_source (b ": t4 begin while ;") ;;;
  evaluate_input FUEL ;;;
  expect (fun v => err_is v (Some (-22))) ;;;
  prim_call P_reset ;;;
  prim_call P_clear_stacks ;;;
  set_source (b ": t5 begin repeat ;") ;;;
  evaluate_input FUEL ;;;
  expect (fun v => err_is v (Some (-22))) ;;;
  prim_call P_reset ;;;
  prim_call P_clear_stacks ;;;
  set_source (b ": t6 while repeat ;") ;;;
  evaluate_input FUEL ;;;
  expect (fun v => err_is v (Some (-22))) ;;;
  prim_call P_reset ;;;
  prim_call P_clear_stacks ;;;
  set_source (b ": t7 0 begin 1+ dup 3 <> while repeat ; t7") ;;;
  evaluate_input FUEL ;;;
  expect (fun v => err_is v None) ;;;
  expect (fun v => len (s_stk v) =? 1) ;;;
  (x <- s_pop ;; expect (fun _ => x =? (3)))
) = true.
Proof. vm_cast_no_check (@eq_refl bool true). Qed.

(** src/core.rs 4614 [test_label_goto_call] *)
Example test_label_goto_call : passes (
  fresh ;;;
  set_source (b ": test1   0labels  0  [ 10 ] label 1+ dup 3 > if exit then [ 10 ] goto ; test1") ;;;
  evaluate_input FUEL ;;;
  (x <- s_pop ;; expect (fun _ => x =? (4))) ;;;
  prim_call P_clear_stacks ;;;
  set_source (b ": test2   0labels  [ 10 ] goto 1 [ 10 ] label 2 3 ; test2") ;;;
  evaluate_input FUEL ;;;
  expect (fun v => len (s_stk v) =? 2) ;;;
  prim_call P_clear_stacks ;;;
  set_source (b ": test3   0labels  [ 10 ] goto [ 20 ] label 2 3  exit  [ 10 ] label  [ 20 ] call 4 5 ; test3") ;;;
  evaluate_input FUEL ;;;
  expect (fun v => len (s_stk v) =? 4) ;;;
  prim_call P_clear_stacks ;;;
  set_source (b ": test4   0labels  [ 10 ] call 1 exit [ 10 ] label 2 3 ; test4") ;;;
  evaluate_input FUEL ;;;
  expect (fun v => len (s_stk v) =? 3) ;;;
  (x <- s_pop ;; expect (fun _ => x =? (1))) ;;;
  prim_call P_clear_stacks ;;;
  set_source (b ": test5   0labels  [ 10 ] call ; test5") ;;;
  evaluate_input FUEL ;;;
  expect (fun v => err_is v (Some (-22))) ;;;
  prim_call P_clear_stacks ;;;
  prim_call P_clear_error ;;;
  set_source (b ": test6   [ 0 ] goto ;") ;;;
  evaluate_input FUEL ;;;
  expect (fun v => negb (err_is v None)) ;;;
  prim_call P_clear_stacks ;;;
  prim_call P_clear_error ;;;
  set_source (b ": test7   [ 0 ] label ;") ;;;
  evaluate_input FUEL ;;;
  expect (fun v => negb (err_is v None)) ;;;
  prim_call P_clear_stacks ;;;
  prim_call P_clear_error ;;;
  set_source (b ": test8   [ 0 ] call ;") ;;;
  evaluate_input FUEL ;;;
  expect (fun v => negb (err_is v None))
) = true.
Proof. vm_cast_no_check (@eq_refl bool true). Qed.

(** src/core.rs 4664 [test_backslash] *)
Example test_backslash : passes (
  fresh ;;;
  set_source (b "1 2 3 \ 5 6 7") ;;;
  evaluate_input FUEL ;;;
  expect (fun v => err_is v None) ;;;
  expect (fun v => len (s_stk v) =? 3) ;;;
  (x <- s_pop ;; expect (fun _ => x =? (3))) ;;;
  (x <- s_pop ;; expect (fun _ => x =? (2))) ;;;
  (x <- s_pop ;; expect (fun _ => x =? (1)))
) = true.
Proof. vm_cast_no_check (@eq_refl bool true). Qed.

(** src/core.rs 4688 [test_abort] *)
Example test_abort : passes (
  fresh ;;;
  set_source (b "1 2 3 abort 5 6 7") ;;;
  evaluate_input FUEL ;;;
  expect (fun v => err_is v (Some (-1))) ;;;
  expect (fun v => len (s_stk v) =? 0)
) = true.
Proof. vm_cast_no_check (@eq_refl bool true). Qed.

(** src/core.rs 4697 [test_do_loop] *)
Example test_do_loop : passes (
  fresh ;;;
  set_source (b ": t1 do ;") ;;;
  evaluate_input FUEL ;;;
  expect (fun v => err_is v (Some (-22))) ;;;
  prim_call P_reset ;;;
  prim_call P_clear_stacks ;;;
  set_source (b ": t2 loop ;") ;;;
  evaluate_input FUEL ;;;
  expect (fun v => err_is v (Some (-22))) ;;;
  prim_call P_reset ;;;
  prim_call P_clear_stacks ;;;
  set_source (b ": main 1 5 0 do 1+ loop ;  main") ;;;
  evaluate_input FUEL ;;;
  expect (fun v => err_is v None) ;;;
  expect (fun v => len (s_stk v) =? 1) ;;;
  (x <- s_pop ;; expect (fun _ => x =? (6)))
) = true.
Proof. vm_cast_no_check (@eq_refl bool true). Qed.

(** src/core.rs 4720 [test_do_unloop_exit_loop] *)
Example test_do_unloop_exit_loop : passes (
  fresh ;;;
  set_source (b ": t1 unloop ; t1") ;;;
  evaluate_input FUEL ;;;
  expect (fun v => err_is v (Some (-6))) ;;;
  prim_call P_reset ;;;
  prim_call P_clear_stacks ;;;
  set_source (b ": main 1 5 0 do 1+ dup 3 = if unloop exit then loop ;  main") ;;;
  evaluate_input FUEL ;;;
  expect (fun v => err_is v None) ;;;
  expect (fun v => len (s_stk v) =? 1) ;;;
  (x <- s_pop ;; expect (fun _ => x =? (3)))
) = true.
Proof. vm_cast_no_check (@eq_refl bool true). Qed.

(** src/core.rs 4737 [test_do_plus_loop] *)
Example test_do_plus_loop : passes (
  fresh ;;;
  set_source (b ": t1 +loop ;") ;;;
  evaluate_input FUEL ;;;
  expect (fun v => err_is v (Some (-22))) ;;;
  prim_call P_reset ;;;
  prim_call P_clear_stacks ;;;
  set_source (b ": t2 5 0 do +loop ; t2") ;;;
  evaluate_input FUEL ;;;
  expect (fun v => err_is v (Some (-4))) ;;;
  prim_call P_clear_stacks ;;;
  prim_call P_reset ;;;
  set_source (b ": t3 1 5 0 do 1+ 2 +loop ;  t3") ;;;
  evaluate_input FUEL ;;;
  expect (fun v => err_is v None) ;;;
  expect (fun v => len (s_stk v) =? 1) ;;;
  (x <- s_pop ;; expect (fun _ => x =? (4))) ;;;
  set_source (b ": t4 1 6 0 do 1+ 2 +loop ;  t4") ;;;
  evaluate_input FUEL ;;;
  expect (fun v => err_is v None) ;;;
  expect (fun v => len (s_stk v) =? 1) ;;;
  (x <- s_pop ;; expect (fun _ => x =? (4)))
) = true.
Proof. vm_cast_no_check (@eq_refl bool true). Qed.

(** src/core.rs 4766 [test_do_leave_loop] *)
Example test_do_leave_loop : passes (
  fresh ;;;
  set_source (b ": t1 leave ;  t1") ;;;
  evaluate_input FUEL ;;;
  expect (fun v => err_is v (Some (-22))) ;;;
  prim_call P_reset ;;;
  prim_call P_clear_stacks ;;;
  set_source (b ": main 1 5 0 do 1+ dup 3 = if drop 88 leave then loop 9 ;  main") ;;;
  evaluate_input FUEL ;;;
  expect (fun v => err_is v None) ;;;
  expect (fun v => len (s_stk v) =? 2) ;;;
  (p <- s_pop2 ;; expect (fun _ => (fst p =? (88)) && (snd p =? (9))))
) = true.
Proof. vm_cast_no_check (@eq_refl bool true). Qed.

(** src/core.rs 4783 [test_do_leave_plus_loop] *)
Example test_do_leave_plus_loop : passes (
  fresh ;;;
  set_source (b ": main 1 5 0 do 1+ dup 3 = if drop 88 leave then 2 +loop 9 ;  main") ;;;
  evaluate_input FUEL ;;;
  expect (fun v => err_is v None) ;;;
  expect (fun v => len (s_stk v) =? 2) ;;;
  (p <- s_pop2 ;; expect (fun _ => (fst p =? (88)) && (snd p =? (9))))
) = true.
Proof. vm_cast_no_check (@eq_refl bool true). Qed.

(** src/core.rs 4794 [test_do_i_loop] *)
Example test_do_i_loop : passes (
  fresh ;;;
  set_source (b ": main 3 0 do i loop ;  main") ;;;
  evaluate_input FUEL ;;;
  expect (fun v => err_is v None) ;;;
  expect (fun v => len (s_stk v) =? 3) ;;;
  (p <- s_pop3 ;; expect (fun _ => let '(x, y, z) := p in (x =? 0) && (y =? 1) && (z =? 2)))
) = true.
Proof. vm_cast_no_check (@eq_refl bool true). Qed.

(** src/core.rs 4805 [test_do_i_j_loop] *)
Example test_do_i_j_loop : passes (
  fresh ;;;
  set_source (b ": main 6 4 do 3 1 do i j * loop loop ;  main") ;;;
  evaluate_input FUEL ;;;
  expect (fun v => err_is v None) ;;;
  expect (fun v => len (s_stk v) =? 4) ;;;
  expect (fun v => bytes_eqb (as_slice (s_stk v)) [(4); (8); (5); (10)])
) = true.
Proof. vm_cast_no_check (@eq_refl bool true). Qed.

(** src/env.rs 33 [test_max_n] *)
Example test_max_n : passes (
  fresh ;;;
  set_source (b "max-n dup 1+ +") ;;;
  evaluate_input FUEL ;;;
  expect (fun v => err_is v None) ;;;
  (x <- s_pop ;; expect (fun _ => x =? (-1)))
) = true.
Proof. vm_cast_no_check (@eq_refl bool true). Qed.

(** src/env.rs 44 [test_max_u] *)
Example test_max_u : passes (
  fresh ;;;
  set_source (b "max-u 1+") ;;;
  evaluate_input FUEL ;;;
  expect (fun v => err_is v None) ;;;
  (x <- s_pop ;; expect (fun _ => x =? (0)))
) = true.
Proof. vm_cast_no_check (@eq_refl bool true). Qed.

(** src/float.rs 343 [test_ans_forth_float] *)
Example test_ans_forth_float : passes (
  fresh ;;;
  set_source (b "1E") ;;;
  evaluate_input FUEL ;;;
  expect (fun v => len (f_stk v) =? 1) ;;;
  (x <- f_pop ;; expect (fun _ => Z.abs (x - 4607182418800017408) <=? 4)) ;;;
  set_source (b "1.E") ;;;
  evaluate_input FUEL ;;;
  expect (fun v => len (f_stk v) =? 1) ;;;
  (x <- f_pop ;; expect (fun _ => Z.abs (x - 4607182418800017408) <=? 4)) ;;;
  set_source (b "1.E+") ;;;
  evaluate_input FUEL ;;;
  expect (fun v => len (f_stk v) =? 1) ;;;
  (x <- f_pop ;; expect (fun _ => Z.abs (x - 4607182418800017408) <=? 4)) ;;;
  set_source (b "1.E-") ;;;
  evaluate_input FUEL ;;;
  expect (fun v => len (f_stk v) =? 1) ;;;
  (x <- f_pop ;; expect (fun _ => Z.abs (x - 4607182418800017408) <=? 4)) ;;;
  set_source (b "1.E2") ;;;
  evaluate_input FUEL ;;;
  expect (fun v => len (f_stk v) =? 1) ;;;
  (x <- f_pop ;; expect (fun _ => Z.abs (x - 4636737291354636288) <=? 4)) ;;;
  set_source (b "1.0E") ;;;
  evaluate_input FUEL ;;;
  expect (fun v => len (f_stk v) =? 1) ;;;
  (x <- f_pop ;; expect (fun _ => Z.abs (x - 4607182418800017408) <=? 4)) ;;;
  set_source (b "-1E") ;;;
  evaluate_input FUEL ;;;
  expect (fun v => len (f_stk v) =? 1) ;;;
  (x <- f_pop ;; expect (fun _ => Z.abs (x - 13830554455654793216) <=? 4)) ;;;
  set_source (b "1.23E") ;;;
  evaluate_input FUEL ;;;
  expect (fun v => len (f_stk v) =? 1) ;;;
  (x <- f_pop ;; expect (fun _ => Z.abs (x - 4608218246714312622) <=? 4)) ;;;
  set_source (b "12.3E-2") ;;;
  evaluate_input FUEL ;;;
  expect (fun v => len (f_stk v) =? 1) ;;;
  (x <- f_pop ;; expect (fun _ => Z.abs (x - 4593527504729830064) <=? 4)) ;;;
  set_source (b "-12.3E+2") ;;;
  evaluate_input FUEL ;;;
  expect (fun v => len (f_stk v) =? 1) ;;;
  (x <- f_pop ;; expect (fun _ => Z.abs (x - 13876496449509785600) <=? 4)) ;;;
  set_source (b ".3E") ;;;
  evaluate_input FUEL ;;;
  expect (fun v => err_is v (Some (-13))) ;;;
  expect (fun v => len (f_stk v) =? 0)
) = true.
Proof. vm_cast_no_check (@eq_refl bool true). Qed.

(** src/float.rs 392 [test_evaluate_f64] *)
Example test_evaluate_f64 : passes (
  fresh ;;;
  set_source (b "1.0E 2.5E") ;;;
  evaluate_input FUEL ;;;
  expect (fun v => err_is v None) ;;;
  expect (fun v => len (f_stk v) =? 2) ;;;
  expect (fun v => flt 4607182328728024861 (nth 0 (as_slice (f_stk v)) 0)) ;;;
  expect (fun v => flt (nth 0 (as_slice (f_stk v)) 0) 4607182463836013682) ;;;
  expect (fun v => flt 4612811895816232391 (nth 1 (as_slice (f_stk v)) 0)) ;;;
  expect (fun v => flt (nth 1 (as_slice (f_stk v)) 0) 4612811940852228665)
) = true.
Proof. vm_cast_no_check (@eq_refl bool true). Qed.

(** src/float.rs 405 [test_fconstant] *)
Example test_fconstant : passes (
  fresh ;;;
  set_source (b "1.1E fconstant x x x") ;;;
  evaluate_input FUEL ;;;
  expect (fun v => err_is v None) ;;;
  expect (fun v => bytes_eqb (as_slice (f_stk v)) [4607632778762754458; 4607632778762754458])
) = true.
Proof. vm_cast_no_check (@eq_refl bool true). Qed.

(** src/float.rs 414 [test_fstore_ffetch] *)
Example test_fstore_ffetch : passes (
  fresh ;;;
  set_source (b "3.3e here f!  0.0e  here f@") ;;;
  evaluate_input FUEL ;;;
  expect (fun v => err_is v None) ;;;
  expect (fun v => bytes_eqb (as_slice (f_stk v)) [0; 4614613358185178726])
) = true.
Proof. vm_cast_no_check (@eq_refl bool true). Qed.

(** src/float.rs 423 [test_fabs] *)
Example test_fabs : passes (
  fresh ;;;
  set_source (b "-3.14E fabs") ;;;
  evaluate_input FUEL ;;;
  expect (fun v => err_is v None) ;;;
  expect (fun v => len (f_stk v) =? 1) ;;;
  (x <- f_pop ;; expect (fun _ => flt 4614253047696990950 x && flt x 4614253092732987224))
) = true.
Proof. vm_cast_no_check (@eq_refl bool true). Qed.

(** src/float.rs 519 [test_fsqrt] *)
Example test_fsqrt : passes (
  fresh ;;;
  set_source (b "0.3E fsqrt") ;;;
  evaluate_input FUEL ;;;
  expect (fun v => err_is v None) ;;;
  expect (fun v => len (f_stk v) =? 1) ;;;
  (x <- f_pop ;; expect (fun _ => flt 4603108651728282407 x && flt x 4603108669742680916))
) = true.
Proof. vm_cast_no_check (@eq_refl bool true). Qed.

(** src/float.rs 531 [test_fdrop] *)
Example test_fdrop : passes (
  fresh ;;;
  f_push 4607182418800017408 ;;;
  prim_call P_fdrop ;;;
  expect (fun v => err_is v None) ;;;
  expect (fun v => bytes_eqb (as_slice (f_stk v)) [])
) = true.
Proof. vm_cast_no_check (@eq_refl bool true). Qed.

(** src/float.rs 540 [test_fnip] *)
Example test_fnip : passes (
  fresh ;;;
  f_push2 4607182418800017408 4611686018427387904 ;;;
  prim_call P_check_stacks ;;;
  prim_call P_fnip ;;;
  expect (fun v => err_is v None) ;;;
  expect (fun v => bytes_eqb (as_slice (f_stk v)) [4611686018427387904])
) = true.
Proof. vm_cast_no_check (@eq_refl bool true). Qed.

(** src/float.rs 554 [test_fswap] *)
Example test_fswap : passes (
  fresh ;;;
  f_push2 4607182418800017408 4611686018427387904 ;;;
  prim_call P_check_stacks ;;;
  prim_call P_fswap ;;;
  expect (fun v => err_is v None) ;;;
  expect (fun v => bytes_eqb (as_slice (f_stk v)) [4611686018427387904; 4607182418800017408])
) = true.
Proof. vm_cast_no_check (@eq_refl bool true). Qed.

(** src/float.rs 568 [test_fdup] *)
Example test_fdup : passes (
  fresh ;;;
  f_push 4607182418800017408 ;;;
  prim_call P_fdup ;;;
  prim_call P_check_stacks ;;;
  expect (fun v => err_is v None) ;;;
  expect (fun v => bytes_eqb (as_slice (f_stk v)) [4607182418800017408; 4607182418800017408])
) = true.
Proof. vm_cast_no_check (@eq_refl bool true). Qed.

(** src/float.rs 578 [test_fover] *)
Example test_fover : passes (
  fresh ;;;
  f_push2 4607182418800017408 4611686018427387904 ;;;
  prim_call P_fover ;;;
  prim_call P_check_stacks ;;;
  expect (fun v => err_is v None) ;;;
  expect (fun v => bytes_eqb (as_slice (f_stk v)) [4607182418800017408; 4611686018427387904; 4607182418800017408])
) = true.
Proof. vm_cast_no_check (@eq_refl bool true). Qed.

(** src/float.rs 588 [test_frot] *)
Example test_frot : passes (
  fresh ;;;
  f_push3 4607182418800017408 4611686018427387904 4613937818241073152 ;;;
  prim_call P_frot ;;;
  prim_call P_check_stacks ;;;
  expect (fun v => err_is v None) ;;;
  expect (fun v => bytes_eqb (as_slice (f_stk v)) [4611686018427387904; 4613937818241073152; 4607182418800017408])
) = true.
Proof. vm_cast_no_check (@eq_refl bool true). Qed.

(** src/float.rs 598 [test_fpick] *)
Example test_fpick : passes (
  fresh ;;;
  f_push 4607182418800017408 ;;;
  s_push (0) ;;;
  prim_call P_fpick ;;;
  prim_call P_check_stacks ;;;
  expect (fun v => err_is v None) ;;;
  expect (fun v => bytes_eqb (as_slice (s_stk v)) []) ;;;
  expect (fun v => bytes_eqb (as_slice (f_stk v)) [4607182418800017408; 4607182418800017408]) ;;;
  fresh ;;;
  f_push 4607182418800017408 ;;;
  f_push 0 ;;;
  s_push (1) ;;;
  prim_call P_fpick ;;;
  prim_call P_check_stacks ;;;
  expect (fun v => err_is v None) ;;;
  expect (fun v => bytes_eqb (as_slice (s_stk v)) []) ;;;
  expect (fun v => bytes_eqb (as_slice (f_stk v)) [4607182418800017408; 0; 4607182418800017408])
) = true.
Proof. vm_cast_no_check (@eq_refl bool true). Qed.

(** src/float.rs 620 [test_fplus_fminus_fstar_fslash] *)
Example test_fplus_fminus_fstar_fslash : passes (
  fresh ;;;
  set_source (b "9.0e 10.0e f+ 11.0e f- 12.0e f* 13.0e f/") ;;;
  evaluate_input FUEL ;;;
  expect (fun v => err_is v None) ;;;
  expect (fun v => len (f_stk v) =? 1) ;;;
  (x <- f_pop ;; expect (fun _ => flt 4620000354642056641 x && flt x 4620000356893856455)) ;;;
  prim_call P_check_stacks ;;;
  expect (fun v => err_is v None)
) = true.
Proof. vm_cast_no_check (@eq_refl bool true). Qed.

(** src/float.rs 634 [test_f_zero_less_than] *)
Example test_f_zero_less_than : passes (
  fresh ;;;
  set_source (b "0.0e f0<   0.1e f0<   -0.1e f0<") ;;;
  evaluate_input FUEL ;;;
  expect (fun v => err_is v None) ;;;
  expect (fun v => len (s_stk v) =? 3) ;;;
  (x <- s_pop ;; expect (fun _ => x =? (-1))) ;;;
  (x <- s_pop ;; expect (fun _ => x =? (0))) ;;;
  (x <- s_pop ;; expect (fun _ => x =? (0))) ;;;
  expect (fun v => bytes_eqb (as_slice (f_stk v)) []) ;;;
  prim_call P_check_stacks ;;;
  expect (fun v => err_is v None)
) = true.
Proof. vm_cast_no_check (@eq_refl bool true). Qed.

(** src/float.rs 649 [test_f_zero_equals] *)
Example test_f_zero_equals : passes (
  fresh ;;;
  set_source (b "0.0e f0=   0.1e f0=   -0.1e f0=") ;;;
  evaluate_input FUEL ;;;
  expect (fun v => err_is v None) ;;;
  expect (fun v => len (s_stk v) =? 3) ;;;
  (x <- s_pop ;; expect (fun _ => x =? (0))) ;;;
  (x <- s_pop ;; expect (fun _ => x =? (0))) ;;;
  (x <- s_pop ;; expect (fun _ => x =? (-1))) ;;;
  expect (fun v => bytes_eqb (as_slice (f_stk v)) []) ;;;
  prim_call P_check_stacks ;;;
  expect (fun v => err_is v None)
) = true.
Proof. vm_cast_no_check (@eq_refl bool true). Qed.

(** src/float.rs 664 [test_f_less_than] *)
Example test_f_less_than : passes (
  fresh ;;;
  set_source (b "0.0e 0.0e f<   0.1e 0.0e f<   -0.1e 0.0e f<") ;;;
  evaluate_input FUEL ;;;
  expect (fun v => err_is v None) ;;;
  expect (fun v => len (s_stk v) =? 3) ;;;
  (x <- s_pop ;; expect (fun _ => x =? (-1))) ;;;
  (x <- s_pop ;; expect (fun _ => x =? (0))) ;;;
  (x <- s_pop ;; expect (fun _ => x =? (0))) ;;;
  expect (fun v => bytes_eqb (as_slice (f_stk v)) []) ;;;
  prim_call P_check_stacks ;;;
  expect (fun v => err_is v None)
) = true.
Proof. vm_cast_no_check (@eq_refl bool true). Qed.

(** src/float.rs 679 [test_fproximate] *)
Example test_fproximate : passes (
  fresh ;;;
  set_source (b "0.1e 0.1e 0.0e f~   0.1e 0.1000000001e 0.0e f~") ;;;
  evaluate_input FUEL ;;;
  expect (fun v => err_is v None) ;;;
  expect (fun v => len (s_stk v) =? 2) ;;;
  (x <- s_pop ;; expect (fun _ => x =? (0))) ;;;
  (x <- s_pop ;; expect (fun _ => x =? (-1))) ;;;
  expect (fun v => bytes_eqb (as_slice (f_stk v)) []) ;;;
  prim_call P_check_stacks ;;;
  expect (fun v => err_is v None) ;;;
  modify (fun v => set_s (stack_reset (s_stk v)) v) ;;;
  set_source (b "0.1e 0.1e 0.001e f~   0.1e 0.109e 0.01e f~   0.1e 0.111e  0.01e f~") ;;;
  evaluate_input FUEL ;;;
  expect (fun v => err_is v None) ;;;
  expect (fun v => len (s_stk v) =? 3) ;;;
  (x <- s_pop ;; expect (fun _ => x =? (0))) ;;;
  (x <- s_pop ;; expect (fun _ => x =? (-1))) ;;;
  (x <- s_pop ;; expect (fun _ => x =? (-1))) ;;;
  expect (fun v => bytes_eqb (as_slice (f_stk v)) []) ;;;
  prim_call P_check_stacks ;;;
  expect (fun v => err_is v None) ;;;
  modify (fun v => set_s (stack_reset (s_stk v)) v) ;;;
  set_source (b "0.1e 0.1e -0.001e f~   0.1e 0.109e -0.1e f~   0.1e 0.109e  -0.01e f~") ;;;
  evaluate_input FUEL ;;;
  expect (fun v => err_is v None) ;;;
  expect (fun v => len (s_stk v) =? 3) ;;;
  (x <- s_pop ;; expect (fun _ => x =? (0))) ;;;
  (x <- s_pop ;; expect (fun _ => x =? (-1))) ;;;
  (x <- s_pop ;; expect (fun _ => x =? (-1))) ;;;
  expect (fun v => bytes_eqb (as_slice (f_stk v)) []) ;;;
  prim_call P_check_stacks ;;;
  expect (fun v => err_is v None) ;;;
  modify (fun v => set_s (stack_reset (s_stk v)) v)
) = true.
Proof. vm_cast_no_check (@eq_refl bool true). Qed.

(** src/float.rs 734 [test_n_to_f] *)
Example test_n_to_f : passes (
  fresh ;;;
  set_source (b "0 s>f -1 s>f 1 s>f") ;;;
  evaluate_input FUEL ;;;
  expect (fun v => err_is v None) ;;;
  expect (fun v => bytes_eqb (as_slice (f_stk v)) [0; 13830554455654793216; 4607182418800017408])
) = true.
Proof. vm_cast_no_check (@eq_refl bool true). Qed.

(** src/float.rs 743 [test_f_to_n] *)
Example test_f_to_n : passes (
  fresh ;;;
  set_source (b "0.0e f>s -1.0e f>s 1.0e f>s") ;;;
  evaluate_input FUEL ;;;
  expect (fun v => err_is v None) ;;;
  expect (fun v => bytes_eqb (as_slice (s_stk v)) [(0); (-1); (1)])
) = true.
Proof. vm_cast_no_check (@eq_refl bool true). Qed.

(** src/float.rs 752 [test_flit_and_compile_float] *)
Example test_flit_and_compile_float : passes (
  fresh ;;;
  set_source (b ": test 1.0e 2.0e ; test") ;;;
  evaluate_input FUEL ;;;
  expect (fun v => err_is v None) ;;;
  expect (fun v => bytes_eqb (as_slice (f_stk v)) [4607182418800017408; 4611686018427387904])
) = true.
Proof. vm_cast_no_check (@eq_refl bool true). Qed.

(** src/output.rs 229 [test_s_quote_and_type] *)
Example test_s_quote_and_type : passes (
  fresh ;;;
  set_source (b ": hi   s"" Hi, how are you"" type ; hi") ;;;
  evaluate_input FUEL ;;;
  expect (fun v => err_is v None) ;;;
  expect (fun v => bytes_eqb (as_slice (f_stk v)) []) ;;;
  expect (fun v => match v_out v with Some t => bytes_eqb t (b "Hi, how are you") | None => false end)
) = true.
Proof. vm_cast_no_check (@eq_refl bool true). Qed.

(** src/output.rs 239 [test_emit] *)
Example test_emit : passes (
  fresh ;;;
  set_source (b "42 emit 43 emit") ;;;
  evaluate_input FUEL ;;;
  expect (fun v => err_is v None) ;;;
  expect (fun v => bytes_eqb (as_slice (s_stk v)) []) ;;;
  expect (fun v => match v_out v with Some t => bytes_eqb t (b "*+") | None => false end)
) = true.
Proof. vm_cast_no_check (@eq_refl bool true). Qed.

(** src/units.rs 130 [test_units_meter] *)
Example test_units_meter : passes (
  fresh ;;;
  set_source (b "0.1234E meter") ;;;
  evaluate_input FUEL ;;;
  expect (fun v => err_is v None) ;;;
  expect (fun v => len (f_stk v) =? 1) ;;;
  t <- f_pop ;; 
  expect (fun _ => flt 4593556320561685831 t && flt t 4593556334973204639)
) = true.
Proof. vm_cast_no_check (@eq_refl bool true). Qed.

(** src/units.rs 141 [test_units_mm] *)
Example test_units_mm : passes (
  fresh ;;;
  set_source (b "0.3E mm") ;;;
  evaluate_input FUEL ;;;
  expect (fun v => err_is v None) ;;;
  expect (fun v => len (f_stk v) =? 1) ;;;
  t <- f_pop ;; 
  expect (fun _ => flt 4554167802191906454 t && flt t 4554171491540721196)
) = true.
Proof. vm_cast_no_check (@eq_refl bool true). Qed.

(** src/units.rs 152 [test_units_um] *)
Example test_units_um : passes (
  fresh ;;;
  set_source (b "3.0E um") ;;;
  evaluate_input FUEL ;;;
  expect (fun v => err_is v None) ;;;
  expect (fun v => len (f_stk v) =? 1) ;;;
  t <- f_pop ;; 
  expect (fun _ => flt 4523957857652768474 t && flt t 4524430094301055438)
) = true.
Proof. vm_cast_no_check (@eq_refl bool true). Qed.

(** src/units.rs 163 [test_units_deg] *)
Example test_units_deg : passes (
  fresh ;;;
  set_source (b "10.0E deg") ;;;
  evaluate_input FUEL ;;;
  expect (fun v => err_is v None) ;;;
  expect (fun v => len (f_stk v) =? 1) ;;;
  t <- f_pop ;; 
  expect (fun _ => flt 4595456227114886858 t && flt t 4595456234320646262)
) = true.
Proof. vm_cast_no_check (@eq_refl bool true). Qed.

(** src/units.rs 174 [test_units_rad] *)
Example test_units_rad : passes (
  fresh ;;;
  set_source (b "10.0E rad") ;;;
  evaluate_input FUEL ;;;
  expect (fun v => err_is v None) ;;;
  expect (fun v => len (f_stk v) =? 1) ;;;
  t <- f_pop ;; 
  expect (fun _ => flt 4621819117532676525 t && flt t 4621819117645266515)
) = true.
Proof. vm_cast_no_check (@eq_refl bool true). Qed.

(** src/units.rs 185 [test_units_hr] *)
Example test_units_hr : passes (
  fresh ;;;
  set_source (b "1.0E hr") ;;;
  evaluate_input FUEL ;;;
  expect (fun v => err_is v None) ;;;
  expect (fun v => len (f_stk v) =? 1) ;;;
  t <- f_pop ;; 
  expect (fun _ => flt 4660134898793489666 t && flt t 4660134898793929470)
) = true.
Proof. vm_cast_no_check (@eq_refl bool true). Qed.

(** src/units.rs 196 [test_units_minute] *)
Example test_units_minute : passes (
  fresh ;;;
  set_source (b "1.0E minute") ;;;
  evaluate_input FUEL ;;;
  expect (fun v => err_is v None) ;;;
  expect (fun v => len (f_stk v) =? 1) ;;;
  t <- f_pop ;; 
  expect (fun _ => flt 4633641066596745323 t && flt t 4633641066624892821)
) = true.
Proof. vm_cast_no_check (@eq_refl bool true). Qed.

(** src/units.rs 207 [test_units_sec] *)
Example test_units_sec : passes (
  fresh ;;;
  set_source (b "2.0E sec") ;;;
  evaluate_input FUEL ;;;
  expect (fun v => err_is v None) ;;;
  expect (fun v => len (f_stk v) =? 1) ;;;
  t <- f_pop ;; 
  expect (fun _ => flt 4611686017977027941 t && flt t 4611686018652567885)
) = true.
Proof. vm_cast_no_check (@eq_refl bool true). Qed.

(** src/units.rs 218 [test_units_msec] *)
Example test_units_msec : passes (
  fresh ;;;
  set_source (b "2.0E msec") ;;;
  evaluate_input FUEL ;;;
  expect (fun v => err_is v None) ;;;
  expect (fun v => len (f_stk v) =? 1) ;;;
  t <- f_pop ;; 
  expect (fun _ => flt 4566757877960438915 t && flt t 4566758339129040757)
) = true.
Proof. vm_cast_no_check (@eq_refl bool true). Qed.

(** src/units.rs 229 [test_units_usec] *)
Example test_units_usec : passes (
  fresh ;;;
  set_source (b "2.0E usec") ;;;
  evaluate_input FUEL ;;;
  expect (fun v => err_is v None) ;;;
  expect (fun v => len (f_stk v) =? 1) ;;;
  t <- f_pop ;; 
  expect (fun _ => flt 4521579322942689318 t && flt t 4522068911059620615)
) = true.
Proof. vm_cast_no_check (@eq_refl bool true). Qed.

(** src/units.rs 240 [test_units_mm_per_min] *)
Example test_units_mm_per_min : passes (
  fresh ;;;
  set_source (b "2.0E mm/min") ;;;
  evaluate_input FUEL ;;;
  expect (fun v => err_is v None) ;;;
  expect (fun v => len (f_stk v) =? 1) ;;;
  t <- f_pop ;; 
  expect (fun _ => flt 4540029199119819718 t && flt t 4540058713910337654)
) = true.
Proof. vm_cast_no_check (@eq_refl bool true). Qed.

(** src/units.rs 251 [test_units_um_per_msec] *)
Example test_units_um_per_msec : passes (
  fresh ;;;
  set_source (b "2.0E um/msec") ;;;
  evaluate_input FUEL ;;;
  expect (fun v => err_is v None) ;;;
  expect (fun v => len (f_stk v) =? 1) ;;;
  t <- f_pop ;; 
  expect (fun _ => flt 4566757877960438915 t && flt t 4566758339129040757)
) = true.
Proof. vm_cast_no_check (@eq_refl bool true). Qed.

(** src/units.rs 262 [test_rpm] *)
Example test_rpm : passes (
  fresh ;;;
  set_source (b "2.0E rpm") ;;;
  evaluate_input FUEL ;;;
  expect (fun v => err_is v None) ;;;
  expect (fun v => len (f_stk v) =? 1) ;;;
  t <- f_pop ;; 
  expect (fun _ => flt 4596713870289819391 t && flt t 4596713877495578795)
) = true.
Proof. vm_cast_no_check (@eq_refl bool true). Qed.

(** src/units.rs 273 [test_hz] *)
Example test_hz : passes (
  fresh ;;;
  set_source (b "2.0E hz") ;;;
  evaluate_input FUEL ;;;
  expect (fun v => err_is v None) ;;;
  expect (fun v => len (f_stk v) =? 1) ;;;
  t <- f_pop ;; 
  expect (fun _ => flt 4611686017977027941 t && flt t 4611686018652567885)
) = true.
Proof. vm_cast_no_check (@eq_refl bool true). Qed.
