(** Properties C01-C09: data stack words, stack histories, checks, arithmetic. *)
From Coq Require Import ZArith List Bool Lia.
From Verif Require Import Base Stack Mem Parser State CoreM Exec Boot Std Spec
  LBase LStack LState LWords LHist LCheck Ex.
Import ListNotations.
Open Scope Z_scope.

(** C01.  Lists are written top of stack first: [effect_is P_swap [c; a] [a; c]]
    is the stack comment ( a c -- c a ). *)
Theorem C01_stack_words {E : Env} :
  (forall a, effect_is P_dup [a] [a; a]) /\
  (forall a, effect_is P_p_drop [a] []) /\
  (forall a c, effect_is P_swap [c; a] [a; c]) /\
  (forall a c, effect_is P_over [c; a] [a; c; a]) /\
  (forall a c, effect_is P_nip [c; a] [c]) /\
  (forall a c d, effect_is P_rot [d; c; a] [a; d; c]) /\
  (forall a c d, effect_is P_minus_rot [d; c; a] [c; a; d]) /\
  (forall a c, effect_is P_two_drop [c; a] []) /\
  (forall a c, effect_is P_two_dup [c; a] [c; a; c; a]) /\
  (forall a c d e, effect_is P_two_swap [e; d; c; a] [c; a; e; d]) /\
  (forall a c d e, effect_is P_two_over [e; d; c; a] [c; a; e; d; c; a]).
Proof.
  exact (conj dup_effect (conj drop_effect (conj swap_effect (conj over_effect (conj nip_effect
        (conj rot_effect (conj minus_rot_effect (conj two_drop_effect (conj two_dup_effect
        (conj two_swap_effect two_over_effect)))))))))).
Qed.
Print Assumptions C01_stack_words.

(** n pick copies the n-th cell (0 = top) *)
Theorem C01_pick {E : Env} : forall n x l, nth_error l n = Some x -> effect_is P_pick (Z.of_nat n :: l) (x :: l).
Proof. exact pick_effect. Qed.
Print Assumptions C01_pick.

Theorem C01_depth {E : Env} : forall fuel ew v l,
  stack_has (t_s (cur v)) l -> zlen l < 255 ->
  exists v', exec_prim fuel ew P_depth v = Ok (tt, v') /\
             stack_has (t_s (cur v')) (zlen l :: l) /\ only_data_stack v v'.
Proof. exact depth_effect. Qed.
Print Assumptions C01_depth.

Example C01_example :
  stack_has (t_s (cur (ex_d [4; 3; 2; 1]))) [4; 3; 2; 1] /\
  out_s (exec_prim 0 ew_nop P_rot (ex_d [4; 3; 2; 1])) = Some [2; 4; 3; 1] /\
  out_s (exec_prim 0 ew_nop P_two_over (ex_d [4; 3; 2; 1])) = Some [2; 1; 4; 3; 2; 1] /\
  out_s (exec_prim 0 ew_nop P_pick (ex_d [2; 4; 3; 2; 1])) = Some [2; 4; 3; 2; 1] /\
  out_s (exec_prim 0 ew_nop P_depth (ex_d [4; 3; 2; 1])) = Some [4; 4; 3; 2; 1].
Proof. split; [apply ex_d_has; cbn; lia|]. conjs; ev. Qed.

(** C02.  Any of the four stacks: a history that stays within 0..255 items
    behaves as on an ideal stack. *)
Theorem C02_lifo {T : Type} : forall ops (c : T) l outs,
  ideal_ops 255 [] ops = Some (l, outs) ->
  exists s, do_ops (stack_new c) ops = (s, outs) /\ stack_has s l.
Proof. exact (fun ops c l outs => do_ops_ideal 255 ops (stack_new c) [] l outs (Z.le_refl _) (new_has c)). Qed.
Print Assumptions C02_lifo.

(** The same from any stack content *)
Theorem C02_lifo_from {T : Type} : forall ops (s : stack T) l l' outs,
  stack_has s l -> ideal_ops 255 l ops = Some (l', outs) ->
  exists s', do_ops s ops = (s', outs) /\ stack_has s' l'.
Proof. exact (fun ops s l l' outs => do_ops_ideal 255 ops s l l' outs (Z.le_refl _)). Qed.
Print Assumptions C02_lifo_from.

Example C02_example :
  ideal_ops 255 [] [OPush 1; OPush2 2 3; OPop; OPush3 4 5 6; OPop2; OPop3] = Some ([], [3; 6; 5; 4; 2; 1]).
Proof. reflexivity. Qed.

(** C03.  No false alarm. *)
Theorem C03_no_false_alarm {E : Env} : forall fuel ew v,
  bounded_since_reset (t_s (cur v)) -> bounded_since_reset (t_r (cur v)) ->
  bounded_since_reset (t_c (cur v)) -> bounded_since_reset (t_f (cur v)) ->
  exec_prim fuel ew P_check_stacks v = Ok (tt, v).
Proof.
  exact (fun fuel ew v Hs Hr Hc Hf => check_quiet fuel ew v (bounded_clean _ Hs) (bounded_clean _ Hr)
           (bounded_clean _ Hc) (bounded_clean _ Hf)).
Qed.
Print Assumptions C03_no_false_alarm.

Example C03_example :
  bounded_since_reset (t_s (cur (ex_d (repeat S_CANARY 64)))) /\
  bounded_since_reset (t_c (cur (ex_d (repeat S_CANARY 64)))).
Proof.
  split.
  - exists S_CANARY, (repeat (OPush S_CANARY) 64). eexists _, _. split; [reflexivity|]. ev.
  - exists CCanary, []. eexists _, _. split; reflexivity.
Qed.

(** C04.  Persisting overflow and underflow are reported.  An underflow is
    reported as such when the stack never held more than 64 items; otherwise it
    may be reported as an overflow.  A stack is examined only when those before
    it in the order data, return, control, float are sound. *)
Theorem C04_alarm {E : Env} : forall fuel ew v,
  let reports e := exec_prim fuel ew P_check_stacks v = abort_with ew e v in
  (forall ops, history (t_s (cur v)) ops ->
    (65 <= net_depth ops <= 128 -> reports STACK_OVERFLOW) /\
    (-127 <= net_depth ops <= -1 -> depths_within (-128) 64 0 ops -> reports STACK_UNDERFLOW) /\
    (-127 <= net_depth ops <= -1 -> reports STACK_OVERFLOW \/ reports STACK_UNDERFLOW)) /\
  (forall ops, bounded_since_reset (t_s (cur v)) -> history (t_r (cur v)) ops ->
    (65 <= net_depth ops <= 128 -> reports RETURN_STACK_OVERFLOW) /\
    (-127 <= net_depth ops <= -1 -> depths_within (-128) 64 0 ops -> reports RETURN_STACK_UNDERFLOW) /\
    (-127 <= net_depth ops <= -1 -> reports RETURN_STACK_OVERFLOW \/ reports RETURN_STACK_UNDERFLOW)) /\
  (forall ops, bounded_since_reset (t_s (cur v)) -> bounded_since_reset (t_r (cur v)) ->
    history (t_c (cur v)) ops ->
    (65 <= net_depth ops <= 128 -> reports CONTROL_STRUCTURE_MISMATCH) /\
    (-127 <= net_depth ops <= -1 -> reports CONTROL_STRUCTURE_MISMATCH)) /\
  (forall ops, bounded_since_reset (t_s (cur v)) -> bounded_since_reset (t_r (cur v)) ->
    bounded_since_reset (t_c (cur v)) -> history (t_f (cur v)) ops ->
    (65 <= net_depth ops <= 128 -> reports FLOATING_POINT_STACK_OVERFLOW) /\
    (-127 <= net_depth ops <= -1 -> depths_within (-128) 64 0 ops -> reports FLOATING_POINT_STACK_UNDERFLOW) /\
    (-127 <= net_depth ops <= -1 ->
       reports FLOATING_POINT_STACK_OVERFLOW \/ reports FLOATING_POINT_STACK_UNDERFLOW)).
Proof.
  exact (fun fuel ew v => conj (check_s fuel ew v) (conj (check_r fuel ew v)
           (conj (check_c fuel ew v) (check_f fuel ew v)))).
Qed.
Print Assumptions C04_alarm.

Example C04_example :
  history (t_s (cur (ex_d (repeat 7 65)))) (repeat (OPush 7) 65) /\
  net_depth (repeat (OPush 7) 65) = 65 /\
  out_err (exec_prim 0 ew_nop P_check_stacks (ex_d (repeat 7 65))) = Some (Some (-3)) /\
  depths_within (-128) 64 0 [OPush 1; OPop2] /\ net_depth [OPush 1; OPop2] = -1.
Proof.
  split; [exists S_CANARY; ev|]. conjs; try ev; cbn; lia.
Qed.

(** C05.  The full statement (every word that consumes more cells than there
    are is reported) is false: dup on an empty stack and over on one cell go
    unnoticed and leave the guard value on the stack. *)
Theorem C05_underflow_detected_refuted :
  (exists v v' : @vm env_d, stack_has (t_s (cur v)) [] /\ exec_prim 0 ew_nop P_dup v = Ok (tt, v') /\
     exec_prim 0 ew_nop P_check_stacks v' = Ok (tt, v') /\ out_s (Ok (tt, v')) = Some [S_CANARY]) /\
  (exists v v' : @vm env_d, stack_has (t_s (cur v)) [1] /\ exec_prim 0 ew_nop P_over v = Ok (tt, v') /\
     exec_prim 0 ew_nop P_check_stacks v' = Ok (tt, v') /\ out_s (Ok (tt, v')) = Some [S_CANARY; 1]).
Proof.
  exact (conj
   (ex_intro _ (ex_d []) (ex_intro _ _ (conj (ex_d_has [] ltac:(vm_compute; discriminate))
     (conj eq_refl (conj eq_refl eq_refl)))))
   (ex_intro _ (ex_d [1]) (ex_intro _ _ (conj (ex_d_has [1] ltac:(vm_compute; discriminate))
     (conj eq_refl (conj eq_refl eq_refl)))))).
Qed.
Print Assumptions C05_underflow_detected_refuted.

(** What does hold: a word of the group [shrinking_words] that would take the
    depth below zero is reported. *)
Theorem C05_underflow_detected_partial {E : Env} : forall fuel ew v p delta,
  In (p, delta) shrinking_words -> bounded_since_reset (t_s (cur v)) -> len (t_s (cur v)) + delta < 0 ->
  exists v', exec_prim fuel ew p v = Ok (tt, v') /\
    exec_prim fuel ew P_check_stacks v' = abort_with ew STACK_UNDERFLOW v'.
Proof. exact shrinking. Qed.
Print Assumptions C05_underflow_detected_partial.

Example C05_example :
  bounded_since_reset (t_s (cur (ex_d [1]))) /\ len (t_s (cur (ex_d [1]))) + -2 < 0.
Proof.
  split; [|cbn; lia]. exists S_CANARY, [OPush 1]. eexists _, _. split; reflexivity.
Qed.

(** C06. *)
Theorem C06_arithmetic {E : Env} :
  (forall n t, effect P_plus [t; n] (result1 (wraps_to (n + t)))) /\
  (forall n t, effect P_minus [t; n] (result1 (wraps_to (n - t)))) /\
  (forall n t, effect P_star [t; n] (result1 (wraps_to (n * t)))) /\
  (forall n, effect P_one_plus [n] (result1 (wraps_to (n + 1)))) /\
  (forall n, effect P_one_minus [n] (result1 (wraps_to (n - 1)))) /\
  (forall n, effect P_negate [n] (result1 (wraps_to (- n)))) /\
  (forall n, effect P_abs [n] (result1 (wraps_to (Z.abs n)))).
Proof.
  exact (conj plus_spec (conj minus_spec (conj star_spec (conj one_plus_spec
          (conj one_minus_spec (conj negate_spec abs_spec)))))).
Qed.
Print Assumptions C06_arithmetic.

Example C06_example :
  out_s (exec_prim 0 ew_nop P_plus (ex_d [imax; 1])) = Some [imin] /\
  out_s (exec_prim 0 ew_nop P_star (ex_d [imin; -1; 5])) = Some [imin; 5] /\
  out_s (exec_prim 0 ew_nop P_abs (ex_d [imin])) = Some [imin] /\ wraps_to (imax + 1) imin.
Proof.
  conjs; try ev. split; [unfold is_cell; vm_compute; split; congruence|]. exists 1. ev.
Qed.

(** C07. *)
Theorem C07_division {E : Env} : forall n d, is_cell n -> is_cell d -> d <> 0 ->
  effect P_slash_mod [d; n] (fun o => exists q r, o = [q; r] /\ quot_rem n d q r) /\
  effect P_slash [d; n] (result1 (fun q => exists r, quot_rem n d q r)) /\
  effect P_p_mod [d; n] (result1 (fun r => exists q, quot_rem n d q r)).
Proof.
  exact (fun n d Hn Hd H0 => conj (slash_mod_spec n d Hn Hd H0)
          (conj (slash_spec n d Hn Hd H0) (mod_spec n d Hn Hd H0))).
Qed.
Print Assumptions C07_division.

Theorem C07_division_by_zero {E : Env} : forall p fuel ew v rest,
  In p [P_slash; P_p_mod; P_slash_mod] -> stack_has (t_s (cur v)) (0 :: rest) ->
  exec_prim fuel ew p v = abort_with ew DIVISION_BY_ZERO v.
Proof. exact div_zero. Qed.
Print Assumptions C07_division_by_zero.

Example C07_example :
  quot_rem (-7) 2 (-3) (-1) /\
  out_s (exec_prim 0 ew_nop P_slash_mod (ex_d [2; -7])) = Some [-3; -1] /\
  out_s (exec_prim 0 ew_nop P_slash (ex_d [-1; imin])) = Some [imin] /\
  out_err (exec_prim 0 ew_nop P_slash (ex_d [0; 1])) = Some (Some (-10)).
Proof.
  split.
  - unfold quot_rem, is_cell. repeat split; try lia; try (left; lia); try (right; lia).
  - conjs; ev.
Qed.

(** C08. *)
Theorem C08_bitwise {E : Env} : forall n t, is_cell n -> is_cell t ->
  effect P_and [t; n] (result1 (bits_are (fun i => Z.testbit n i && Z.testbit t i))) /\
  effect P_or [t; n] (result1 (bits_are (fun i => Z.testbit n i || Z.testbit t i))) /\
  effect P_xor [t; n] (result1 (bits_are (fun i => xorb (Z.testbit n i) (Z.testbit t i)))) /\
  effect P_invert [n] (result1 (bits_are (fun i => negb (Z.testbit n i)))).
Proof.
  exact (fun n t Hn Ht => conj (and_spec n t Hn Ht) (conj (or_spec n t Hn Ht)
          (conj (xor_spec n t Hn Ht) (invert_spec n Hn)))).
Qed.
Print Assumptions C08_bitwise.

(** Logical shifts; [n mod 2^64] is the unsigned reading of [n]. *)
Theorem C08_shifts {E : Env} : forall n t,
  effect P_lshift [t; n] (result1 (wraps_to (n * 2 ^ (t mod 64)))) /\
  effect P_rshift [t; n] (result1 (wraps_to ((n mod 2 ^ 64) / 2 ^ (t mod 64)))).
Proof. exact (fun n t => conj (lshift_spec n t) (rshift_spec n t)). Qed.
Print Assumptions C08_shifts.

Example C08_example :
  out_s (exec_prim 0 ew_nop P_and (ex_d [12; 10])) = Some [8] /\
  out_s (exec_prim 0 ew_nop P_rshift (ex_d [1; -1])) = Some [imax] /\
  out_s (exec_prim 0 ew_nop P_lshift (ex_d [65; 3])) = Some [6].
Proof. conjs; ev. Qed.

(** C09. *)
Theorem C09_comparisons {E : Env} :
  (forall n, effect P_zero_less [n] (result1 (fun f => truth f (n < 0)))) /\
  (forall n, effect P_zero_equals [n] (result1 (fun f => truth f (n = 0)))) /\
  (forall n, effect P_zero_greater [n] (result1 (fun f => truth f (n > 0)))) /\
  (forall n, effect P_zero_not_equals [n] (result1 (fun f => truth f (n <> 0)))) /\
  (forall n t, effect P_equals [t; n] (result1 (fun f => truth f (n = t)))) /\
  (forall n t, effect P_less_than [t; n] (result1 (fun f => truth f (n < t)))) /\
  (forall n t, effect P_greater_than [t; n] (result1 (fun f => truth f (n > t)))) /\
  (forall n t, effect P_not_equals [t; n] (result1 (fun f => truth f (n <> t)))) /\
  (forall x1 x2 x3, effect P_within [x3; x2; x1] (result1 (fun f => truth f (x2 <= x1 < x3)))).
Proof.
  exact (conj zero_less_spec (conj zero_equals_spec (conj zero_greater_spec (conj zero_not_equals_spec
        (conj equals_spec (conj less_than_spec (conj greater_than_spec (conj not_equals_spec within_spec)))))))).
Qed.
Print Assumptions C09_comparisons.

Example C09_example :
  out_s (exec_prim 0 ew_nop P_less_than (ex_d [imax; imin])) = Some [-1] /\
  out_s (exec_prim 0 ew_nop P_within (ex_d [5; 3; 5; 9])) = Some [0; 9].
Proof. conjs; ev. Qed.
