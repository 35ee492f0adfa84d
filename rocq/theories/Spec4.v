(** Specification vocabulary: exceptions and tasks. *)
From Coq Require Import ZArith List Bool.
From Verif Require Import Base Stack Mem State CoreM Exec Spec.
Import ListNotations.
Open Scope Z_scope.

Section S.
Context {E : Env}.

(** An empty stack in which every slot holds the canary, so that neither
    underflow nor overflow is reported *)
Definition fresh_stack {T} (s0 s : stack T) : Prop :=
  len s = 0 /\ canary s = canary s0 /\ forall i, sget s i = canary s.

(** The state handed to the exception handler when [e] is raised in [v]: data,
    float and control stacks are fresh, the error and the word being executed
    are recorded, everything else is as it was. *)
Definition raised (e : Z) (v v1 : vm) : Prop :=
  fresh_stack (t_s (cur v)) (t_s (cur v1)) /\ fresh_stack (t_f (cur v)) (t_f (cur v1)) /\
  fresh_stack (t_c (cur v)) (t_c (cur v1)) /\
  v_err v1 = Some e /\ st_awp (st v1) = st_wp (st v) /\
  (* unchanged *)
  v_cur v1 = v_cur v /\ v_handler v1 = v_handler v /\ v_wl v1 = v_wl v /\ v_ds v1 = v_ds v /\
  v_tkn v1 = v_tkn v /\ v_out v1 = v_out v /\ v_hld v1 = v_hld v /\ v_refs v1 = v_refs v /\
  v_now v1 = v_now v /\ v_fwd v1 = v_fwd v /\ v_res v1 = v_res v /\ v_labels v1 = v_labels v /\
  v_os v1 = v_os v /\ v_stdout v1 = v_stdout v /\ v_stderr v1 = v_stderr v /\
  same_other_tasks v v1 /\
  t_r (cur v1) = t_r (cur v) /\ t_awake (cur v1) = t_awake (cur v) /\
  t_inbuf (cur v1) = t_inbuf (cur v) /\ t_files (cur v1) = t_files (cur v) /\
  t_sources (cur v1) = t_sources (cur v) /\ t_lines (cur v1) = t_lines (cur v) /\
  st_compiling (st v1) = st_compiling (st v) /\ st_ip (st v1) = st_ip (st v) /\
  st_wp (st v1) = st_wp (st v) /\ st_idx (st v1) = st_idx (st v) /\ st_sid (st v1) = st_sid (st v).

(** The action of word number [i] *)
Definition word_is (v : vm) (i : Z) (p : prim) : Prop :=
  0 <= i < wl_len (v_wl v) /\ w_action (wl_get (v_wl v) i) = p.

(** ** Tasks *)

(** [i] is the first awake task after the current one, cyclically; the current
    task itself comes last. *)
Definition next_awake (v : vm) (i : Z) : Prop :=
  exists k, 1 <= k <= NUM_TASKS /\ i = (v_cur v + k) mod NUM_TASKS /\
    t_awake (task_at v i) = true /\
    forall j, 1 <= j < k -> t_awake (task_at v ((v_cur v + j) mod NUM_TASKS)) = false.

(** Everything shared by the tasks, except the pending error *)
Definition same_shared (v v' : vm) : Prop :=
  v_cur v' = v_cur v /\ v_handler v' = v_handler v /\ v_wl v' = v_wl v /\ v_ds v' = v_ds v /\
  v_tkn v' = v_tkn v /\ v_out v' = v_out v /\ v_hld v' = v_hld v /\ v_refs v' = v_refs v /\
  v_now v' = v_now v /\ v_fwd v' = v_fwd v /\ v_res v' = v_res v /\ v_labels v' = v_labels v /\
  v_os v' = v_os v /\ v_stdout v' = v_stdout v /\ v_stderr v' = v_stderr v.

(** Task [t'] is task [t] restarted at address [a]: awake, its return stack
    empty, interpreting from the console, at the start of an empty line; its data,
    float and control stacks, files and sources are kept. *)
Definition restarted_at (a : Z) (t t' : task) : Prop :=
  t_awake t' = true /\ fresh_stack (t_r t) (t_r t') /\
  st_ip (t_state t') = a /\ st_compiling (t_state t') = false /\ st_idx (t_state t') = 0 /\
  st_sid (t_state t') = 0 /\ st_awp (t_state t') = 0 /\ st_wp (t_state t') = st_wp (t_state t) /\
  t_inbuf t' = match t_inbuf t with Some _ => Some [] | None => None end /\
  t_s t' = t_s t /\ t_c t' = t_c t /\ t_f t' = t_f t /\
  t_files t' = t_files t /\ t_sources t' = t_sources t /\ t_lines t' = t_lines t.

End S.
