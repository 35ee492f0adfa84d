(** Vocabulary of the properties of the facility words GET and RELEASE (C48). *)
From Coq Require Import ZArith List Bool String.
From Verif Require Import Base Stack Mem Parser State CoreM Exec Spec Spec2 Spec4 Spec5 Spec7 Spec10 Spec15 Spec16.
Import ListNotations.
Open Scope Z_scope.

Section V.
Context {E : Env}.

(** ** The definitions of core.fth *)
Section Text.
Variable ix : prim -> Z.
(* : get begin dup @ while pause repeat me swap ! ; *)
Definition d_get := block [While (block [wd ix P_dup; wd ix P_fetch]) (wd ix P_pause); wd ix P_me; wd ix P_swap; wd ix P_store].
(* : release dup @ me = if 0 swap ! else drop then ; *)
Definition d_release := block [wd ix P_dup; wd ix P_fetch; wd ix P_me; wd ix P_equals;
  IfElse (block [Num 0; wd ix P_swap; wd ix P_store]) (wd ix P_p_drop)].
End Text.
(** GET and RELEASE are the words [gt] and [rl], their code is at [g] and [h] *)
Definition facility_words (K : Z -> Prop) (ix : prim -> Z) (v : vm) (gt rl g h : Z) : Prop :=
  library ix v /\ colon_word K v gt (d_get ix) (ix P_exit) /\ colon_word K v rl (d_release ix) (ix P_exit) /\
  body v gt = g /\ body v rl = h.

(** ** Interleavings *)
Section Run.
Variable K : Z -> Prop.
Variable ix : prim -> Z.
Variables gt rl g h : Z.
(** the facility *)
Variable a : Z.

(** The 11 cells of GET and the 14 cells of RELEASE *)
Definition inside (k : Z) : Prop := g <= k < g + 88 \/ h <= k < h + 112.
(** A facility variable that is [a] or does not overlap it; a cell of the data space outside the code *)
Definition proper (v : vm) (x : Z) : Prop := free_of K v x 8 /\ (x = a \/ x + 8 <= a \/ a + 8 <= x).
(** The task [t] has called GET or RELEASE: a facility on the data stack, a return address outside of the two words *)
Definition calling (v : vm) (t : task) : Prop :=
  exists x d r rs, stack_has (t_s t) (x :: d) /\ zlen d <= 240 /\ proper v x /\ stack_has (t_r t) (r :: rs) /\ 0 <= r < 2 ^ 63 /\ ~ inside r.
Definition ip_of (t : task) : Z := st_ip (t_state t).
(** The task [t] is executing something else, or it is about to begin with GET or RELEASE *)
Definition elsewhere (v : vm) (t : task) : Prop := ~ inside (ip_of t) \/ ((ip_of t = g \/ ip_of t = h) /\ calling v t).
(** The instruction and the stacks of a task are as before *)
Definition same_place (t t' : task) : Prop := ip_of t' = ip_of t /\ t_s t' = t_s t /\ t_r t' = t_r t.

(** The machine is in order: the words and the facility are there, the data space holds bytes *)
Definition fit (v : vm) : Prop :=
  facility_words K ix v gt rl g h /\ ds_ok (v_ds v) /\ (forall k, start (v_ds v) <= k < limit (v_ds v) -> 0 <= byte_at (v_ds v) k < 256) /\
  free_of K v a 8 /\ 0 <= v_cur v < NUM_TASKS /\ (g + 88 <= h \/ h + 112 <= g).

(** Anything that the current task can do outside of GET and RELEASE, except writing to the facility [a] or to the code and
    jumping into the middle of GET or RELEASE; in particular it may call them, other tasks may be sent elsewhere (as by
    ACTIVATE), and another task may become the current one (as by PAUSE) *)
Definition polite (v v' : vm) : Prop :=
  fit v' /\ kept K v v' /\
  (forall k, 0 <= k < 8 -> byte_at (v_ds v') (a + k) = byte_at (v_ds v) (a + k)) /\
  (forall t, 0 <= t < NUM_TASKS -> (t <> v_cur v /\ same_place (task_at v t) (task_at v' t)) \/ elsewhere v' (task_at v' t)).

(** The task is about to write its number to the facility in GET / about to clear the facility in RELEASE *)
Definition top_is (v : vm) (x : Z) : Prop := exists d, stack_has (t_s (cur v)) (x :: d).
Definition taking (v : vm) : Prop := st_ip (st v) = g + 72 /\ top_is v a.
Definition giving (v : vm) : Prop := st_ip (st v) = h + 72 /\ top_is v a.

(** [interleaving v o]: from a state in which the facility is free and nobody is executing GET or RELEASE, [v] has been
    reached; [o] are the tasks that have taken the facility with GET and have not given it back with RELEASE.  The
    instructions of GET and RELEASE are executed by the machine one by one. *)
Inductive interleaving : vm -> list Z -> Prop :=
| I_start v : fit v -> cell_at (v_ds v) a 0 -> (forall t, 0 <= t < NUM_TASKS -> elsewhere v (task_at v t)) -> interleaving v []
| I_other v o v' : interleaving v o -> ~ inside (st_ip (st v)) -> polite v v' -> interleaving v' o
| I_take v o v' : interleaving v o -> machine_step v v' -> taking v -> interleaving v' (v_cur v :: o)
| I_give v o v' : interleaving v o -> machine_step v v' -> giving v -> interleaving v' (remove Z.eq_dec (v_cur v) o)
| I_step v o v' : interleaving v o -> machine_step v v' -> inside (st_ip (st v)) -> ~ taking v -> ~ giving v -> interleaving v' o.
End Run.

(** The loaded system has these words *)
Definition facility_installed (ix : prim -> Z) (v : vm) : Prop :=
  exists gt rl, newest v (b "get"%string) (Some gt) /\ newest v (b "release"%string) (Some rl) /\
    facility_words (allocated v) ix v gt rl (body v gt) (body v rl).
End V.
