(** Specification vocabulary: the states a host program can bring a VM into,
    and the elementary steps an execution is made of. *)
From Coq Require Import ZArith List Bool Relations.
From Verif Require Import Base Stack Mem State CoreM Exec Boot Spec.
Import ListNotations.
Open Scope Z_scope.

Section S.
Context {E : Env}.

(** The states that a host can produce: it constructs a VM and then, in any
    order, executes words, runs compiled code, evaluates input lines or whole
    scripts, pushes values, changes the input, the clock, the handler or the
    output buffer, or raises and clears exceptions. *)
Inductive reachable : vm -> Prop :=
| reach_new fuel addr cap cc o v :
    0 < addr -> 16 <= cap -> addr + cap < 2 ^ 63 ->
    vm_new fuel addr cap cc o = Ok v -> reachable v
| reach_word fuel i v v' : reachable v -> execute_word fuel i v = Ok (tt, v') -> reachable v'
| reach_run fuel v v' : reachable v -> run fuel v = Ok (tt, v') -> reachable v'
| reach_forth fuel c v v' : reachable v -> forth fuel v = Ok (c, v') -> reachable v'
| reach_input fuel v v' : reachable v -> evaluate_input fuel v = Ok (tt, v') -> reachable v'
| reach_load fuel s v v' : reachable v -> load_str fuel s v = Ok (tt, v') -> reachable v'
| reach_round fuel c v v' : reachable v -> eval_round fuel v = Ok (c, v') -> reachable v'
| reach_source s v v' : reachable v -> set_source s v = Ok (tt, v') -> reachable v'
| reach_more s v v' : reachable v -> push_source s v = Ok (tt, v') -> reachable v'
| reach_push x v : reachable v -> reachable (set_s (push (s_stk v) x) v)
| reach_fpush x v : reachable v -> reachable (set_f (push (f_stk v) x) v)
| reach_pop v : reachable v -> reachable (set_s (snd (pop (s_stk v))) v)
| reach_fpop v : reachable v -> reachable (set_f (snd (pop (f_stk v))) v)
| reach_abort fuel e v v' :
    reachable v -> abort_with (execute_word fuel) e v = Ok (tt, v') -> reachable v'
| reach_outside err out now files stdout stderr v :
    reachable v ->
    reachable (set_v_err err (set_v_out out (set_v_now now (set_v_os files
                (set_v_stdout stdout (set_v_stderr stderr v)))))).

(** ** Isolation of tasks *)

(** Only the current task and things shared by all tasks may differ *)
Definition keeps_other_tasks (v v' : vm) : Prop :=
  v_cur v' = v_cur v /\
  forall i, 0 <= i < NUM_TASKS -> i <> v_cur v -> task_at v' i = task_at v i.

(** One task's awake flag *)
Definition sets_awake (v v' : vm) : Prop :=
  exists i x, 0 <= i < NUM_TASKS /\ v' = put_task i (set_t_awake x (task_at v i)) v.

(** The current task number *)
Definition switches_task (v v' : vm) : Prop :=
  exists i, 0 <= i < NUM_TASKS /\ t_awake (task_at v i) = true /\ v' = set_v_cur i v.

(** What activation does to the chosen task: its return stack is emptied and
    its interpreter registers are set; everything else is unchanged *)
Definition restarts_task (v v' : vm) : Prop :=
  exists i s b, 0 <= i < NUM_TASKS /\
    v' = put_task i (set_t_state s (set_t_inbuf b
           (set_t_r (stack_reset (t_r (task_at v i))) (task_at v i)))) v.

(** An elementary step *)
Definition task_step (v v' : vm) : Prop :=
  keeps_other_tasks v v' \/ switches_task v v' \/ sets_awake v v' \/ restarts_task v v'.
Definition task_steps : vm -> vm -> Prop := clos_refl_trans vm task_step.

(** ** Well-formed stacks *)
Definition depth_fits {T} (s : stack T) : Prop := 0 <= len s < 256.
Definition stacks_fit (t : task) : Prop :=
  depth_fits (t_s t) /\ depth_fits (t_r t) /\ depth_fits (t_c t) /\ depth_fits (t_f t).

(** ** The dictionary index *)

(** Links lead to strictly older words of the same bucket; every bucket holds
    the number of a word of that bucket.  0 is the end of every chain. *)
Definition index_ok (l : wordlist) : Prop :=
  0 <= wl_len l /\
  (forall i, 0 <= i < wl_len l ->
     let w := wl_get l i in
     w_link w = 0 \/
     (0 < w_link w < i /\ w_hash (wl_get l (w_link w)) mod 64 = w_hash w mod 64)) /\
  (forall k, 0 <= k < 64 ->
     let i := tget 0 (wl_buckets l) k in
     i = 0 \/ (0 < i < wl_len l /\ w_hash (wl_get l i) mod 64 = k)).

End S.
