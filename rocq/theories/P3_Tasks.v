(** Properties C14, C41-C47, C49, C63: invariants of all executions, exceptions, tasks. *)
From Coq Require Import ZArith List Bool Lia String.
From Verif Require Import Base Stack Mem Parser Flt State CoreM FloatM Exec Boot Std Spec Spec2 Spec3 Spec4
  LBase LStack LState LMem LMon LStep LPres LExec LInv LTask Ex Ex2.
Import ListNotations.
Open Scope Z_scope.

(** C14.  In every state a host can bring a VM into, HERE lies inside the data
    space; and no word moves it out of a data space it is in. *)
Theorem C14_here_inside {E : Env} : forall v, reachable v ->
  start (v_ds v) <= here (v_ds v) <= limit (v_ds v).
Proof. exact here_inside. Qed.
Print Assumptions C14_here_inside.

Theorem C14_word_keeps_here_inside {E : Env} : forall fuel i v v',
  execute_word fuel i v = Ok (tt, v') -> ds_ok (v_ds v) ->
  start (v_ds v') = start (v_ds v) /\ limit (v_ds v') = limit (v_ds v) /\
  start (v_ds v') <= here (v_ds v') <= limit (v_ds v').
Proof. exact word_here. Qed.
Print Assumptions C14_word_keeps_here_inside.

Example C14_example : @reachable env_d booted_d /\ here (v_ds booted_d) <> start (v_ds booted_d).
Proof. split; [exact booted_reachable|]. vm_compute. discriminate. Qed.

(** C41.  Raising an exception: data, float and control stacks become empty,
    the error and the current word are recorded, nothing else changes, and the
    handler runs in that state. *)
Theorem C41_abort_with {E : Env} : forall ew e v,
  exists v1, abort_with ew e v = ew (v_handler v) v1 /\ raised e v v1.
Proof. exact abort_raises. Qed.
Print Assumptions C41_abort_with.

Theorem C41_abort {E : Env} : forall fuel ew v,
  exists v1, exec_prim fuel ew P_abort v = ew (v_handler v) v1 /\ raised (-1) v v1.
Proof. exact abort_word_raises. Qed.
Print Assumptions C41_abort.

Example C41_example : exists v1, raised (-1) (ex_d [1; 2; 3]) v1 /\ len (t_s (cur v1)) = 0 /\ len (t_s (cur (ex_d [1; 2; 3]))) = 3.
Proof.
  destruct (C41_abort 0 ew_nop (ex_d [1; 2; 3])) as (v1 & _ & H). exists v1. split; [exact H|].
  split; [exact (proj1 (proj1 H))|]. lazy. reflexivity.
Qed.

(** C42.  Full statement: once a word of a running definition has raised an
    exception, the inner loop executes no further word of it.  False: with the
    handler a new VM has (word 0, which does nothing) the inner loop goes on. *)
Theorem C42_refuted : exists v v1 v2 : @vm env_d,
  v_err v = None /\ run_step 10 v = Ok (tt, v1) /\ v_err v1 = Some (-1) /\ len (t_s (cur v1)) = 0 /\
  run 10 v1 = Ok (tt, v2) /\ len (t_s (cur v2)) = 1.
Proof. exact abort_does_not_stop. Qed.
Print Assumptions C42_refuted.

(** What holds: with a handler that moves the instruction pointer out of the
    data space ([bye]; or any word leaving it below the data space) nothing more
    is executed.  Missing: handlers that do not. *)
Theorem C42_bye_partial {E : Env} : forall f e v v1,
  word_is v (v_handler v) P_bye -> 0 < start (v_ds v) ->
  abort_with (execute_word (S f)) e v = Ok (tt, v1) ->
  v_err v1 = Some e /\ forall n, run (S n) v1 = Ok (tt, v1).
Proof. exact bye_stops. Qed.
Print Assumptions C42_bye_partial.

Theorem C42_outside_partial {E : Env} : forall v,
  v_err v <> None -> st_ip (st v) < start (v_ds v) -> forall n, run (S n) v = Ok (tt, v).
Proof. exact stop_stops. Qed.
Print Assumptions C42_outside_partial.

Example C42_example : let v := set_v_handler 3 w42 in
  word_is v (v_handler v) P_bye /\ 0 < start (v_ds v) /\ is_ok (abort_with (execute_word 1) (-1) v) = true.
Proof. lazy. repeat split; discriminate. Qed.

(** C43.  Full statement: raising an exception returns, whatever the handler.
    False: with [abort] as handler, or a number that is no word, it recurses
    forever. *)
Theorem C43_refuted : exists v : @vm env_d, forall fuel e,
  abort_with (execute_word fuel) e (set_v_handler 1 v) = OutOfFuel /\
  abort_with (execute_word fuel) e (set_v_handler 9999 v) = OutOfFuel.
Proof. exact handler_recursion. Qed.
Print Assumptions C43_refuted.

(** What holds: it returns when the handler is a colon definition (which only
    starts to run later) or one of a few simple words, among them the default
    one.  Missing: other handlers. *)
Theorem C43_partial {E : Env} : forall f e v p,
  In p [P_noop; P_bye; P_left_bracket; P_right_bracket; P_me; P_nest] ->
  word_is v (v_handler v) p -> exists v', abort_with (execute_word (S f)) e v = Ok (tt, v').
Proof. exact simple_returns. Qed.
Print Assumptions C43_partial.

Example C43_example : word_is w42 (v_handler w42) P_noop /\ word_is w42 3 P_bye.
Proof. lazy. repeat split; discriminate. Qed.

(** C44.  [pause] makes the first awake task after the current one current and
    changes nothing else. *)
Theorem C44_pause {E : Env} : forall fuel ew v i, (5 <= fuel)%nat -> next_awake v i ->
  exec_prim fuel ew P_pause v = Ok (tt, set_v_cur i v).
Proof. exact pause_next. Qed.
Print Assumptions C44_pause.

Theorem C44_pause_only {E : Env} : forall fuel ew v v',
  exec_prim fuel ew P_pause v = Ok (tt, v') -> 0 <= v_cur v < NUM_TASKS ->
  next_awake v (v_cur v') /\ v' = set_v_cur (v_cur v') v.
Proof. exact pause_inv. Qed.
Print Assumptions C44_pause_only.

Theorem C44_next_unique {E : Env} : forall v i j, next_awake v i -> next_awake v j -> i = j.
Proof. exact next_unique. Qed.
Print Assumptions C44_next_unique.

Example C44_example : next_awake w47 1 /\ next_awake (set_v_cur 1 w47) 0.
Proof.
  split; [exists 1|exists 4]; (split; [unfold NUM_TASKS; lia|]); (split; [reflexivity|]); (split; [reflexivity|]).
  - intros j Hj. lia.
  - intros j Hj. assert (D : j = 1 \/ j = 2 \/ j = 3) by lia. destruct D as [->|[->| ->]]; reflexivity.
Qed.

(** C45.  Along any sequence of pauses between which the current task number
    does not change, a task that stays awake becomes current within five. *)
Theorem C45_no_starvation {E : Env} : forall (before after : nat -> vm) j,
  0 <= v_cur (before 0%nat) < NUM_TASKS -> 0 <= j < NUM_TASKS ->
  (forall n, exists fuel ew, exec_prim fuel ew P_pause (before n) = Ok (tt, after n)) ->
  (forall n, v_cur (before (S n)) = v_cur (after n)) ->
  (forall n, t_awake (task_at (before n) j) = true) ->
  exists n, (n < 5)%nat /\ v_cur (after n) = j.
Proof. exact no_starvation. Qed.
Print Assumptions C45_no_starvation.

Example C45_example : (* two awake tasks alternating *)
  let before n := set_v_cur (if Nat.even n then 0 else 1) w47 in
  let after n := set_v_cur (if Nat.even n then 1 else 0) w47 in
  (forall n, exec_prim 5 ew_nop P_pause (before n) = Ok (tt, after n)) /\
  (forall n, v_cur (before (S n)) = v_cur (after n)) /\
  (forall n, t_awake (task_at (before n) 1) = true).
Proof.
  cbv zeta. split; [|split].
  - intro n. destruct (Nat.even n).
    + exact (C44_pause 5 ew_nop (set_v_cur 0 w47) 1 (le_n 5) (proj1 C44_example)).
    + exact (C44_pause 5 ew_nop (set_v_cur 1 w47) 0 (le_n 5) (proj2 C44_example)).
  - intro n. rewrite Nat.even_succ, <- Nat.negb_even. destruct (Nat.even n); reflexivity.
  - intro n. destruct (Nat.even n); reflexivity.
Qed.

(** C46.  Full statement: [pause] returns.  False: a task that is the only awake
    one suspends itself and pauses (this is [stop] of core.fth). *)
Theorem C46_refuted : exists v v1 : @vm env_d,
  exec_prim 0 ew_nop P_suspend v = Ok (tt, v1) /\ t_awake (cur v) = true /\
  forall fuel ew, exec_prim fuel ew P_pause v1 = OutOfFuel.
Proof. exact stop_spins. Qed.
Print Assumptions C46_refuted.

(** What holds: it returns exactly when some task is awake. *)
Theorem C46_partial {E : Env} : forall ew v, 0 <= v_cur v < NUM_TASKS ->
  ((exists fuel v', exec_prim fuel ew P_pause v = Ok (tt, v')) <->
   (exists i, 0 <= i < NUM_TASKS /\ t_awake (task_at v i) = true)).
Proof. exact pause_returns_iff. Qed.
Print Assumptions C46_partial.

Example C46_example : exists i, 0 <= i < NUM_TASKS /\ t_awake (task_at w47 i) = true.
Proof. exists 1. split; [unfold NUM_TASKS; lia|reflexivity]. Qed.

(** C47.  Full statement: no word other than [activate], [suspend], [resume] and
    [pause] changes another task or the current task number.  False: with [pause]
    as exception handler, a failing [;] resets the compilation state of the
    task that [pause] switched to. *)
Theorem C47_refuted : exists v v' : @vm env_d,
  exec_prim 10 (execute_word 10) P_semicolon v = Ok (tt, v') /\ v_cur v = 0 /\
  st_compiling (t_state (task_at v 1)) = true /\ st_compiling (t_state (task_at v' 1)) = false.
Proof. exact pause_handler_leaks. Qed.
Print Assumptions C47_refuted.

(** What holds.  First: executing a word leaves every other task alone whenever
    neither the word nor the exception handler is one of the task words, a word
    that executes further words ([execute], [compile-token], [interpret-token])
    or [handler!]. *)
Theorem C47_word_partial {E : Env} : forall fuel i v v',
  execute_word fuel i v = Ok (tt, v') ->
  quiet_at v i -> 0 <= v_cur v < NUM_TASKS -> quiet_handler v -> keeps_other_tasks v v'.
Proof. exact (fun fuel i v v' H Q C Hh => proj1 (quiet_word fuel i v v' H Q C Hh)). Qed.
Print Assumptions C47_word_partial.

(** Second, for every word, also those that execute others: what is executed
    decomposes into steps that leave all other tasks alone, switch to an awake
    task, set a task's awake flag, or restart a task's return stack and
    interpreter registers.  In particular no step ever changes the data, float
    or control stack of a task that is not current. *)
Theorem C47_chain_partial {E : Env} : forall fuel i v v',
  execute_word fuel i v = Ok (tt, v') -> 0 <= v_cur v < NUM_TASKS ->
  0 <= v_cur v' < NUM_TASKS /\ task_steps v v'.
Proof. exact word_chain. Qed.
Print Assumptions C47_chain_partial.

Theorem C47_line_chain_partial {E : Env} : forall fuel s v v',
  load_str fuel s v = Ok (tt, v') -> 0 <= v_cur v < NUM_TASKS ->
  0 <= v_cur v' < NUM_TASKS /\ task_steps v v'.
Proof. exact load_chain. Qed.
Print Assumptions C47_line_chain_partial.

Example C47_example : quiet_handler w42 /\ quiet_at w42 1 /\ 0 <= v_cur w42 < NUM_TASKS /\
  is_ok (execute_word 3 1 w42) = true.
Proof.
  split; [split; [lazy; discriminate|right; lazy; reflexivity]|]. split; [right; lazy; reflexivity|].
  split; [unfold NUM_TASKS; change (v_cur w42) with 0; lia|]. lazy. reflexivity.
Qed.

(** C49.  Full statement: [activate] starts the code behind it in the chosen task
    and returns to the caller's caller.  False when a task activates itself: its
    return address is lost and its return stack underflows. *)
Theorem C49_refuted : exists v v' : @vm env_d,
  exec_prim 0 ew_nop P_activate v = Ok (tt, v') /\ v_cur v = 0 /\
  top_is v 1 1 = true /\ stack_has (t_r (cur v)) [4242] /\
  st_ip (st v') <> 4242 /\ len (t_r (cur v')) = 255.
Proof. exact self_activation. Qed.
Print Assumptions C49_refuted.

(** What holds: for every other task.  Its return stack is emptied; its data,
    float and control stacks are kept. *)
Theorem C49_activate_partial {E : Env} : forall fuel ew v x rest q rr,
  stack_has (t_s (cur v)) (x :: rest) -> stack_has (t_r (cur v)) (q :: rr) ->
  1 <= x <= NUM_TASKS -> 0 <= v_cur v < NUM_TASKS -> x - 1 <> v_cur v ->
  exists v', exec_prim fuel ew P_activate v = Ok (tt, v') /\
    restarted_at (st_ip (st v)) (task_at v (x - 1)) (task_at v' (x - 1)) /\
    same_shared v v' /\ v_err v' = None /\
    (forall i, 0 <= i < NUM_TASKS -> i <> x - 1 -> i <> v_cur v -> task_at v' i = task_at v i) /\
    stack_has (t_s (cur v')) rest /\ stack_has (t_r (cur v')) rr /\
    st v' = set_st_ip (to_u64 q) (st v) /\ t_awake (cur v') = t_awake (cur v) /\
    t_c (cur v') = t_c (cur v) /\ t_f (cur v') = t_f (cur v) /\ t_inbuf (cur v') = t_inbuf (cur v).
Proof. exact activate_ok. Qed.
Print Assumptions C49_activate_partial.

(** Numbers that are no task: -24 after the return (the smallest cell excepted,
    whose predecessor overflows) *)
Theorem C49_activate_bad {E : Env} : forall fuel ew v x rest q rr,
  stack_has (t_s (cur v)) (x :: rest) -> stack_has (t_r (cur v)) (q :: rr) ->
  is_cell x -> ~ 1 <= x <= NUM_TASKS -> x <> - 2 ^ 63 ->
  exists v1, exec_prim fuel ew P_activate v = abort_with ew (-24) v1 /\
    stack_has (t_s (cur v1)) rest /\ stack_has (t_r (cur v1)) rr /\
    st v1 = set_st_ip (to_u64 q) (st v) /\ same_globals v v1 /\ v_ds v1 = v_ds v /\ same_other_tasks v v1.
Proof. exact activate_bad. Qed.
Print Assumptions C49_activate_bad.

Theorem C49_suspend_resume {E : Env} : forall fuel ew (b : bool) v x rest,
  stack_has (t_s (cur v)) (x :: rest) -> 1 <= x <= NUM_TASKS -> 0 <= v_cur v < NUM_TASKS ->
  exists v', exec_prim fuel ew (if b then P_resume else P_suspend) v = Ok (tt, v') /\
    stack_has (t_s (cur v')) rest /\ t_awake (task_at v' (x - 1)) = b /\
    same_shared v v' /\ v_err v' = v_err v /\
    (forall i, 0 <= i < NUM_TASKS -> i <> x - 1 -> i <> v_cur v -> task_at v' i = task_at v i) /\
    (x - 1 <> v_cur v -> t_awake (cur v') = t_awake (cur v)) /\
    (forall i, 0 <= i < NUM_TASKS ->
       t_state (task_at v' i) = t_state (task_at v i) /\ t_r (task_at v' i) = t_r (task_at v i) /\
       t_c (task_at v' i) = t_c (task_at v i) /\ t_f (task_at v' i) = t_f (task_at v i) /\
       (i <> v_cur v -> t_s (task_at v' i) = t_s (task_at v i))).
Proof. exact set_awake_ok. Qed.
Print Assumptions C49_suspend_resume.

Theorem C49_suspend_resume_bad {E : Env} : forall fuel ew (b : bool) v x rest,
  stack_has (t_s (cur v)) (x :: rest) -> is_cell x -> ~ 1 <= x <= NUM_TASKS -> x <> - 2 ^ 63 ->
  exists v1, exec_prim fuel ew (if b then P_resume else P_suspend) v = abort_with ew (-24) v1 /\
    only_data_stack v v1 /\ stack_has (t_s (cur v1)) rest.
Proof. exact set_awake_bad. Qed.
Print Assumptions C49_suspend_resume_bad.

Example C49_example : let v := set_r (push_all (r_stk (ex_d [3; 9])) [4242]) (ex_d [3; 9]) in
  stack_has (t_s (cur v)) [3; 9] /\ stack_has (t_r (cur v)) [4242] /\ 3 - 1 <> v_cur v.
Proof.
  cbv zeta. split; [rewrite cur_set_r; apply ex_d_has; vm_compute; discriminate|].
  split; [rewrite cur_set_r; apply push_all_has|]; [|vm_compute; discriminate|lazy; discriminate].
  split; [reflexivity|]. split; [vm_compute; discriminate|]. intros [|k] x H; discriminate H.
Qed.

(** C63.  Stacks: in every reachable state the depth counters are in range. *)
Theorem C63_stacks {E : Env} : forall v, reachable v ->
  0 <= v_cur v < NUM_TASKS /\ forall i, 0 <= i < NUM_TASKS -> stacks_fit (task_at v i).
Proof. exact reachable_fit. Qed.
Print Assumptions C63_stacks.

(** The dictionary index.  Full statement: [index_ok] in every reachable state.
    False: a marker's saved copy of the index lies in the data space; after
    overwriting it, executing the marker installs a bad index and the next
    lookup panics. *)
Theorem C63_index_refuted : exists v1 v2 : @vm env_d,
  index_ok (v_wl v1) /\ v_err v1 = None /\ execute_word 10 1 v1 = Ok (tt, v2) /\ v_err v2 = None /\
  find 10 (b "x") v2 = Panic PIndex.
Proof. exact marker_corrupts_index. Qed.
Print Assumptions C63_index_refuted.

(** What holds: every word except a marker keeps the index in order. *)
Theorem C63_index_partial {E : Env} : forall fuel ew p v v', p <> P_unmark ->
  (forall i u u', ew i u = Ok (tt, u') -> index_ok (v_wl u) -> index_ok (v_wl u')) ->
  exec_prim fuel ew p v = Ok (tt, v') -> index_ok (v_wl v) -> index_ok (v_wl v').
Proof. exact index_kept. Qed.
Print Assumptions C63_index_partial.

(** ... and while it is in order, every lookup ends (following no more links
    than there are words) and never indexes outside the dictionary. *)
Theorem C63_lookup_ends {E : Env} : forall v name fuel, index_ok (v_wl v) -> wl_len (v_wl v) < Z.of_nat fuel ->
  find fuel name v <> OutOfFuel /\ find fuel name v <> Panic PIndex.
Proof. exact find_ends. Qed.
Print Assumptions C63_lookup_ends.

Example C63_example : index_ok (v_wl booted_d) /\ wl_len (v_wl booted_d) = 325.
Proof. split; [exact booted_index|]. vm_compute. reflexivity. Qed.
