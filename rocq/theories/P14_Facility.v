(** Mutual exclusion with GET and RELEASE: C48.  The vocabulary is in Spec18. *)
From Coq Require Import ZArith List Bool Lia String.
From Verif Require Import Base Stack Mem Parser Flt State CoreM Exec Boot Std.
From Verif Require Import Spec Spec2 Spec4 Spec5 Spec7 Spec9 Spec10 Spec15 Spec16 Spec18.
From Verif Require Import LFacility LFacility2 Ex Ex3 Ex10 Ex12 Ex13.
Import ListNotations.
Open Scope list_scope.
Open Scope Z_scope.
Open Scope m_scope.

(** * C48: facilities *)

(** In the loaded system the names have the definitions in Spec18, in both builds *)
Theorem C48_installed : exists ix, @facility_installed env_d ix booted_d /\ @facility_installed env_r ix booted_r.
Proof. exact (ex_intro _ ix0 (conj (proj1 booted_facility_both) booted_facility_r)). Qed.
Print Assumptions C48_installed.

(** For every interleaving of tasks that use only GET and RELEASE on the facility [a]: at most one task has taken the
    facility and not given it back, and the facility holds the number of that task, 0 if there is none.  The owners are
    determined by the history alone; the instructions of GET and RELEASE are those of the machine. *)
Theorem C48_exclusive {E : Env} : forall K ix gt rl g h a v o, interleaving K ix gt rl g h a v o ->
  (o = [] /\ cell_at (v_ds v) a 0) \/ exists t, 0 <= t < NUM_TASKS /\ o = [t] /\ cell_at (v_ds v) a (t + 1).
Proof. exact exclusive. Qed.
Print Assumptions C48_exclusive.
(** in the loaded system: the first task calls GET for the cell at address 80000 and gets it *)
Example C48_exclusive_case : exists v', machine_steps (fg gg [fac; 7]) v' /\
  interleaving (allocated booted_d) ix0 304 305 gg hh fac v' [0] /\ cell_at (v_ds v') fac 1.
Proof.
  destruct (fg_taken [7]) as (v' & S1 & I1); [reflexivity|]. exists v'. split; [exact S1|]. split; [exact I1|].
  destruct (C48_exclusive _ _ _ _ _ _ _ _ _ I1) as [[X _]|(t & _ & X & C)]; [discriminate|]. injection X as <-. exact C.
Qed.

(** GET of a free facility returns at once with the facility taken *)
Theorem C48_get {E : Env} : forall x, lib_action d_get [x]
  (fun K v => free_of K v x 8 /\ cell_at (v_ds v) x 0 /\ 0 <= v_cur v < NUM_TASKS)
  (fun v outs m text => outs = [] /\ cell_at m x (v_cur v + 1) /\ same_memory_but (v_ds v) m x 8 /\ here m = here (v_ds v) /\ text = []).
Proof. exact get_lib. Qed.
Print Assumptions C48_get.

(** RELEASE by the owner makes the facility free; by anybody else it has no effect on the memory *)
Theorem C48_release {E : Env} : forall x c, lib_action d_release [x]
  (fun K v => free_of K v x 8 /\ cell_at (v_ds v) x c /\ is_cell c /\ 0 <= v_cur v < NUM_TASKS)
  (fun v outs m text => outs = [] /\ text = [] /\
     (c = v_cur v + 1 -> cell_at m x 0 /\ same_memory_but (v_ds v) m x 8 /\ here m = here (v_ds v)) /\
     (c <> v_cur v + 1 -> m = v_ds v)).
Proof. exact release_lib. Qed.
Print Assumptions C48_release.
Example C48_get_release_case : library ix0 (fg gg [fac]) /\
  colon_word (allocated booted_d) (fg gg [fac]) 304 (d_get ix0) (ix0 P_exit) /\ colon_word (allocated booted_d) (fg gg [fac]) 305 (d_release ix0) (ix0 P_exit) /\
  stacks_are (fg gg [fac]) [fac] [0] [] /\ ds_ok (v_ds (fg gg [fac])) /\ free_of (allocated booted_d) (fg gg [fac]) fac 8 /\
  cell_at (v_ds (fg gg [fac])) fac 0 /\ v_cur (fg gg [fac]) = 0.
Proof.
  destruct (fg_words gg [fac]) as (A & B & C & _). split; [exact A|]. split; [exact B|]. split; [exact C|]. split; [apply fg_stacks; reflexivity|].
  split; [rewrite fg_ds; exact booted_ds|]. split; [apply fg_free|]. split; [rewrite fg_ds; exact fac_zero|apply fg_cur].
Qed.

(** GET of a facility that is taken hands control to the next awake task; the task itself stays in GET, its stacks as they
    were, everything else unchanged *)
Theorem C48_waits {E : Env} : forall K ix v gt rl g h x c d rs fs j,
  facility_words K ix v gt rl g h -> ds_ok (v_ds v) -> 0 <= v_cur v < NUM_TASKS -> free_of K v x 8 ->
  cell_at (v_ds v) x c -> is_cell c -> c <> 0 -> stacks_are v (x :: d) rs fs -> zlen d <= 245 -> next_awake v j ->
  st_ip (st v) = g \/ st_ip (st v) = g + 40 ->
  exists v', machine_steps v v' /\ v_cur v' = j /\ v_ds v' = v_ds v /\ v_wl v' = v_wl v /\ v_out v' = v_out v /\
    (forall t, 0 <= t -> t <> v_cur v -> task_at v' t = task_at v t) /\
    ip_of (task_at v' (v_cur v)) = g + 40 /\ stack_has (t_s (task_at v' (v_cur v))) (x :: d) /\ stack_has (t_r (task_at v' (v_cur v))) rs.
Proof. exact waits. Qed.
Print Assumptions C48_waits.
(** the first task calls GET again; nobody else is awake *)
Example C48_waits_case : facility_words (allocated booted_d) ix0 fgt 304 305 gg hh /\ ds_ok (v_ds fgt) /\ v_cur fgt = 0 /\ free_of (allocated booted_d) fgt fac 8 /\
  cell_at (v_ds fgt) fac 1 /\ stacks_are fgt [fac; 7] [0] [] /\ next_awake fgt 0 /\ st_ip (st fgt) = gg.
Proof. exact waits_ready. Qed.

(** A task that waits in GET and gets control when the facility is free takes it and returns to its caller *)
Theorem C48_woken {E : Env} : forall K ix v gt rl g h x d ra rs fs,
  facility_words K ix v gt rl g h -> ds_ok (v_ds v) -> 0 <= v_cur v < NUM_TASKS -> free_of K v x 8 ->
  cell_at (v_ds v) x 0 -> stacks_are v (x :: d) (ra :: rs) fs -> zlen d <= 245 -> 0 <= ra < 2 ^ 63 ->
  exists v', goes v (g + 40) v' ra /\ stacks_are v' d rs fs /\ cell_at (v_ds v') x (v_cur v + 1) /\ same_memory_but (v_ds v) (v_ds v') x 8 /\
    v_out v' = v_out v /\ calm v v'.
Proof. exact woken. Qed.
Print Assumptions C48_woken.
Example C48_woken_case : exists v', goes (fg (gg + 40) [fac; 7]) (gg + 40) v' 0 /\ stacks_are v' [7] [] [] /\ cell_at (v_ds v') fac 1.
Proof.
  destruct (C48_woken (allocated booted_d) ix0 (fg (gg + 40) [fac; 7]) 304 305 gg hh fac [7] 0 [] []) as (v' & A1 & A2 & A3 & _).
  - apply fg_words.
  - rewrite fg_ds. exact booted_ds.
  - rewrite fg_cur. split; reflexivity || discriminate.
  - apply fg_free.
  - rewrite fg_ds. exact fac_zero.
  - apply fg_stacks. reflexivity.
  - discriminate.
  - split; reflexivity || discriminate.
  - rewrite fg_cur in A3. eauto.
Qed.

(** If no other task is awake, GET of a facility that is taken - be it by the task itself, so GET cannot be nested - never
    returns: whatever number of instructions are executed, the task is inside GET *)
Theorem C48_blocked {E : Env} : forall K ix gt rl g h x v v' c d,
  fit K ix gt rl g h x v -> cell_at (v_ds v) x c -> is_cell c -> c <> 0 -> zlen d <= 240 ->
  (forall t, 0 <= t < NUM_TASKS -> t <> v_cur v -> t_awake (task_at v t) = false) ->
  st_ip (st v) = g -> stack_has (t_s (cur v)) (x :: d) -> machine_steps v v' ->
  cell_at (v_ds v') x c /\ v_cur v' = v_cur v /\ g <= st_ip (st v') < g + 48.
Proof. exact blocked_start. Qed.
Print Assumptions C48_blocked.
(** in the loaded system, after the only task has taken the facility *)
Example C48_blocked_case : exists (v : @vm env_d) c d, fit (allocated booted_d) ix0 304 305 gg hh fac v /\ cell_at (v_ds v) fac c /\ is_cell c /\ c <> 0 /\ zlen d <= 240 /\
  (forall t, 0 <= t < NUM_TASKS -> t <> v_cur v -> t_awake (task_at v t) = false) /\ st_ip (st v) = gg /\ stack_has (t_s (cur v)) (fac :: d).
Proof. exact blocked_ready. Qed.
