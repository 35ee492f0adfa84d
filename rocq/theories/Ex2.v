(** Machines used by the examples of the task, exception and dictionary properties. *)
From Coq Require Import ZArith List Bool Lia String.
From Verif Require Import Base Stack Mem Parser State CoreM Exec Boot Std Spec Spec3 Spec4 LBase LStack LState LMem LMon LStep LPres LExec LInv LTask Ex.
Import ListNotations.
Open Scope Z_scope.
Open Scope m_scope.

(** ** A decision procedure for [index_ok] *)
Definition upto (n : Z) : list Z := List.map Z.of_nat (seq 0 (Z.to_nat n)).
Definition index_okb (l : wordlist) : bool :=
  (0 <=? wl_len l) &&
  forallb (fun i => let w := wl_get l i in
     (w_link w =? 0) || ((0 <? w_link w) && (w_link w <? i) &&
       (w_hash (wl_get l (w_link w)) mod 64 =? w_hash w mod 64))) (upto (wl_len l)) &&
  forallb (fun k => let i := tget 0 (wl_buckets l) k in
     (i =? 0) || ((0 <? i) && (i <? wl_len l) && (w_hash (wl_get l i) mod 64 =? k))) (upto 64).
Lemma in_upto n i : 0 <= i < n -> In i (upto n).
Proof. intro H. unfold upto. apply in_map_iff. exists (Z.to_nat i). split; [lia|]. apply in_seq. lia. Qed.
Lemma index_okb_ok l : index_okb l = true -> index_ok l.
Proof.
  unfold index_okb. rewrite !andb_true_iff, !forallb_forall. intros [[H0 H1] H2].
  split; [lia|]. split.
  - intros i Hi. specialize (H1 i (in_upto _ _ Hi)). cbv zeta in *. lia.
  - intros k Hk. specialize (H2 k (in_upto _ _ Hk)). cbv zeta in *. lia.
Qed.

(** ** Small machines: a few words, task 1 (number 0) awake *)
Definition mini {E : Env} (o : os) (ws : list (reg * string * prim)) : vm :=
  match (set_awake 0 true ;;; mapM_ add_word ws) (vm_init 65536 65536 CCanary o) with
  | Ok (_, v) => v
  | _ => vm_init 65536 65536 CCanary o
  end.
Definition state_of {E : Env} {A} (d : vm) (r : res (A * vm)) : vm := match r with Ok (_, v) => v | _ => d end.

Lemma booted_reachable : @reachable env_d booted_d.
Proof. apply (@reach_new env_d FUEL 65536 65536 CCanary fs0); [| | |exact boot_d_ok]; vm_compute; congruence. Qed.
Lemma booted_index : index_ok (v_wl booted_d).
Proof. apply index_okb_ok. vm_cast_no_check (@eq_refl bool true). Qed.

Lemma not_awake_all {E : Env} (v : vm) : 
  forallb (fun i => negb (t_awake (task_at v i))) (upto NUM_TASKS) = true ->
  forall i, 0 <= i < NUM_TASKS -> t_awake (task_at v i) = false.
Proof. intros H i Hi. rewrite forallb_forall in H. specialize (H i (in_upto _ _ Hi)). destruct (t_awake (task_at v i)); [discriminate|reflexivity]. Qed.

Definition is_ok {A} (r : res A) : bool := match r with Ok _ => true | _ => false end.
Lemma ok_state {E : Env} (d : vm) (r : res (unit * vm)) : is_ok r = true -> r = Ok (tt, state_of d r).
Proof. destruct r as [[[] v]| | |]; cbn; congruence. Qed.

(** C42: code [abort me bye] *)
Definition w42 : @vm env_d :=
  let v := @mini env_d fs0 [(KP, ""%string, P_noop); (KP, "abort"%string, P_abort); (KP, "me"%string, P_me); (KP, "bye"%string, P_bye)] in
  state_of v ((modify (fun v => set_ip (here (v_ds v)) v) ;;; mapM_ (fun x => ds_upd (fun d => compile_cell d x)) [1; 2; 3]) v).
Definition w42a : @vm env_d := state_of w42 (run_step 10 w42).
Definition w42b : @vm env_d := state_of w42 (run 10 w42a).
Definition top_is {E : Env} (v : vm) (d x : Z) : bool := (len (t_s (cur v)) =? d) && (sget (t_s (cur v)) (d - 1) =? x).
Definition err_eqb (a c : option Z) : bool := match a, c with Some x, Some y => x =? y | None, None => true | _, _ => false end.
Lemma err_eqb_eq a c : err_eqb a c = true -> a = c.
Proof. destruct a, c; cbn; try congruence. intro H. f_equal. lia. Qed.
Lemma w42_facts : is_ok (run_step 10 w42) = true /\ is_ok (run 10 w42a) = true /\
  err_eqb (v_err w42) None = true /\ err_eqb (v_err w42a) (Some (-1)) = true /\ len (t_s (cur w42a)) = 0 /\ top_is w42b 1 1 = true.
Proof. lazy. repeat split. Qed.

(** C46: a single awake task suspends itself *)
Definition w46 : @vm env_d := set_s (push_all (s_stk vm_d) [1]) (@mini env_d fs0 []).
Definition w46a : @vm env_d := state_of w46 (exec_prim 0 ew_nop P_suspend w46).
Lemma w46_facts : is_ok (exec_prim 0 ew_nop P_suspend w46) = true /\ t_awake (cur w46) = true /\
  forallb (fun i => negb (t_awake (task_at w46a i))) (upto NUM_TASKS) = true.
Proof. lazy. repeat split. Qed.

(** C47: the handler is [pause], another awake task is compiling, and [;] finds
    an unresolved control structure *)
Definition w47 : @vm env_d :=
  let v := @mini env_d fs0 [(KP, ""%string, P_pause)] in
  let v := set_c (push (c_stk v) CCase) v in
  put_task 1 (set_t_state (set_st_compiling true (t_state (task_at v 1))) (set_t_awake true (task_at v 1))) v.
Definition w47a : @vm env_d := state_of w47 (exec_prim 10 (execute_word 10) P_semicolon w47).
Lemma w47_facts : is_ok (exec_prim 10 (execute_word 10) P_semicolon w47) = true /\
  st_compiling (t_state (task_at w47 1)) = true /\ st_compiling (t_state (task_at w47a 1)) = false /\ v_cur w47 = 0.
Proof. lazy. repeat split. Qed.

(** C49: a task activates itself *)
Definition w49 : @vm env_d :=
  let v := @mini env_d fs0 [] in
  set_r (push_all (r_stk v) [4242]) (set_s (push_all (s_stk v) [1]) v).
Definition w49a : @vm env_d := state_of w49 (exec_prim 0 ew_nop P_activate w49).
Lemma w49_facts : is_ok (exec_prim 0 ew_nop P_activate w49) = true /\
  (st_ip (st w49a) =? 4242) = false /\ len (t_r (cur w49a)) = 255 /\ v_cur w49 = 0.
Proof. lazy. repeat split. Qed.

(** C63: [marker m], then the saved image is overwritten, then [m] *)
Definition w63_0 : @vm env_d := state_of vm_d ((set_source (b "m") ;;; exec_prim 10 ew_nop P_marker) (@mini env_d fs0 [(KP, ""%string, P_noop)])).
Definition w63_addr : Z := w_dfa (wl_get (v_wl w63_0) 1) + 8 + 8 * (hash (b "x") mod 64).
Definition w63_1 : @vm env_d := state_of vm_d (exec_prim 10 ew_nop P_store (set_s (push_all (s_stk w63_0) [w63_addr; 9999]) w63_0)).
Definition w63_2 : @vm env_d := state_of vm_d (execute_word 10 1 w63_1).
Lemma w63_facts :
  is_ok ((set_source (b "m") ;;; exec_prim 10 ew_nop P_marker) (@mini env_d fs0 [(KP, ""%string, P_noop)])) = true /\
  is_ok (exec_prim 10 ew_nop P_store (set_s (push_all (s_stk w63_0) [w63_addr; 9999]) w63_0)) = true /\
  is_ok (execute_word 10 1 w63_1) = true /\ index_okb (v_wl w63_1) = true /\
  is_panic PIndex (find 10 (b "x") w63_2) = true /\ wl_len (v_wl w63_2) = 1 /\
  err_eqb (v_err w63_1) None = true /\ err_eqb (v_err w63_2) None = true.
Proof. lazy. repeat split. Qed.

(** ** The witnesses *)
Lemma abort_does_not_stop : exists v v1 v2 : @vm env_d,
  v_err v = None /\ run_step 10 v = Ok (tt, v1) /\ v_err v1 = Some (-1) /\ len (t_s (cur v1)) = 0 /\
  run 10 v1 = Ok (tt, v2) /\ len (t_s (cur v2)) = 1.
Proof.
  destruct w42_facts as (H1 & H2 & H3 & H4 & H5 & H6). exists w42, w42a, w42b.
  split; [apply err_eqb_eq; exact H3|]. split; [apply ok_state; exact H1|].
  split; [apply err_eqb_eq; exact H4|]. split; [exact H5|]. split; [apply ok_state; exact H2|].
  unfold top_is in H6. apply andb_prop in H6. apply Z.eqb_eq. exact (proj1 H6).
Qed.

Lemma handler_recursion : exists v : @vm env_d, forall fuel e,
  abort_with (execute_word fuel) e (set_v_handler 1 v) = OutOfFuel /\
  abort_with (execute_word fuel) e (set_v_handler 9999 v) = OutOfFuel.
Proof.
  exists w42. intros fuel e. split.
  - apply abort_handler_loops. lazy. repeat split; discriminate.
  - apply bad_handler_loops. lazy. discriminate.
Qed.

Lemma stop_spins : exists v v1 : @vm env_d,
  exec_prim 0 ew_nop P_suspend v = Ok (tt, v1) /\ t_awake (cur v) = true /\
  forall fuel ew, exec_prim fuel ew P_pause v1 = OutOfFuel.
Proof.
  destruct w46_facts as (H1 & H2 & H3). exists w46, w46a. split; [apply ok_state; exact H1|].
  split; [exact H2|]. intros. apply pause_spins. apply not_awake_all. exact H3.
Qed.

Lemma pause_handler_leaks : exists v v' : @vm env_d,
  exec_prim 10 (execute_word 10) P_semicolon v = Ok (tt, v') /\ v_cur v = 0 /\
  st_compiling (t_state (task_at v 1)) = true /\ st_compiling (t_state (task_at v' 1)) = false.
Proof.
  destruct w47_facts as (H1 & H2 & H3 & H4). exists w47, w47a. split; [apply ok_state; exact H1|]. auto.
Qed.

Lemma self_activation : exists v v' : @vm env_d,
  exec_prim 0 ew_nop P_activate v = Ok (tt, v') /\ v_cur v = 0 /\
  top_is v 1 1 = true /\ stack_has (t_r (cur v)) [4242] /\
  st_ip (st v') <> 4242 /\ len (t_r (cur v')) = 255.
Proof.
  destruct w49_facts as (H1 & H2 & H3 & H4). exists w49, w49a. split; [apply ok_state; exact H1|].
  split; [exact H4|]. split; [lazy; reflexivity|]. split.
  { unfold w49. cbv zeta. rewrite cur_set_r. apply push_all_has; [|vm_compute; discriminate].
    split; [reflexivity|]. split; [vm_compute; discriminate|]. intros [|k] x H; discriminate H. }
  split; [apply Z.eqb_neq; exact H2|exact H3].
Qed.

Lemma marker_corrupts_index : exists v1 v2 : @vm env_d,
  index_ok (v_wl v1) /\ v_err v1 = None /\ execute_word 10 1 v1 = Ok (tt, v2) /\ v_err v2 = None /\
  find 10 (b "x") v2 = Panic PIndex.
Proof.
  destruct w63_facts as (_ & _ & H3 & H4 & H5 & _ & H7 & H8). exists w63_1, w63_2.
  split; [apply index_okb_ok; exact H4|]. split; [apply err_eqb_eq; exact H7|].
  split; [apply ok_state; exact H3|]. split; [apply err_eqb_eq; exact H8|]. apply panic_eq. exact H5.
Qed.
