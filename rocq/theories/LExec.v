(** Invariants of whole executions. *)
From Coq Require Import ZArith List Bool Lia ZifyBool ZifyNat Relations.
From Verif Require Import Base Stack Mem Parser Flt State CoreM IoM FloatM FileM Exec Boot.
From Verif Require Import LBase LStack Spec Spec13 LState LMem LMon LStep LPres Spec3.
Import ListNotations.
Open Scope Z_scope.
Open Scope m_scope.

Section X.
Context {E : Env}.
Implicit Types (v : vm) (t : task).

(** ** [reset] and [activate] in closed form *)
Definition reset_task t : task :=
  set_t_state (mkState false (st_ip (t_state t)) (st_wp (t_state t)) 0 0 0)
    (set_t_inbuf (match t_inbuf t with Some _ => Some [] | None => None end)
      (set_t_r (stack_reset (t_r t)) t)).

Lemma reset_eq ew v : reset ew v = Ok (tt, set_v_err None (upd_cur reset_task v)).
Proof.
  unfold reset. rewrite bind_modify. unfold set_source_id. cbn [Z.ltb Z.compare Z.eqb].
  rewrite bind_modify. unfold bind at 1, get_inbuf. cbv zeta.
  assert (S0 : st_sid (st (set_sid 0 (set_r (stack_reset (r_stk v)) v))) = 0).
  { unfold st, set_sid, set_st. rewrite cur_upd. reflexivity. }
  rewrite S0. cbn [Z.ltb Z.compare].
  assert (I0 : t_inbuf (cur (set_sid 0 (set_r (stack_reset (r_stk v)) v))) = t_inbuf (cur v)).
  { unfold set_sid, set_st, set_r. rewrite !cur_upd. reflexivity. }
  rewrite I0. unfold left_bracket, set_error. destruct (t_inbuf (cur v)) as [s|] eqn:Hs.
  - unfold bind at 1, put_inbuf. cbv zeta. rewrite S0. cbn [Z.ltb Z.compare].
    rewrite !bind_modify. unfold modify. do 2 f_equal. f_equal.
    unfold set_compiling, set_idx, set_awp, set_sid, set_st, set_r, st, r_stk.
    repeat first [rewrite upd_upd | rewrite cur_upd].
    unfold upd_cur. f_equal. unfold reset_task. rewrite Hs. reflexivity.
  - rewrite bind_ret. rewrite !bind_modify. unfold modify. do 2 f_equal. f_equal.
    unfold set_compiling, set_idx, set_awp, set_sid, set_st, set_r, st, r_stk.
    repeat first [rewrite upd_upd | rewrite cur_upd].
    unfold upd_cur. f_equal. unfold reset_task. rewrite Hs. destruct (cur v); cbn in *. subst. reflexivity.
Qed.

Lemma visit_task i f v : set_v_cur (v_cur v) (upd_cur f (set_v_cur i v)) = put_task i (f (task_at v i)) v.
Proof. destruct v. reflexivity. Qed.

Lemma set_ip_err_upd p e f v : set_ip p (set_v_err e (upd_cur f v)) =
  set_v_err e (upd_cur (fun t => set_t_state (set_st_ip p (t_state (f t))) (f t)) v).
Proof.
  destruct v. unfold set_ip, set_st, st, upd_cur, put_task, cur, task_at.
  cbn. rewrite tget_tset_same, tset_tset. reflexivity.
Qed.

(** ** Steps of whole executions *)
Inductive gstep v : vm -> Prop :=
| g_local v' : lstep v v' -> gstep v v'
| g_handler h : gstep v (set_v_handler h v)
| g_unmark w : wl_len w <= wl_len (v_wl v) -> wl_tbl w = wl_tbl (v_wl v) -> gstep v (set_v_wl w v)
| g_switch i : 0 <= i < NUM_TASKS -> t_awake (task_at v i) = true -> gstep v (set_v_cur i v)
| g_awake i x : 0 <= i < NUM_TASKS -> gstep v (put_task i (set_t_awake x (task_at v i)) v)
| g_restart i p : 0 <= i < NUM_TASKS ->
    gstep v (put_task i (set_t_state (set_st_ip p (t_state (reset_task (task_at v i)))) (reset_task (task_at v i))) v).

Definition gsteps : vm -> vm -> Prop := clos_refl_trans vm gstep.
Lemma gsteps_closed : closed gsteps.
Proof.
  split; [intro; apply rt_refl|intros; eapply rt_trans; eassumption|].
  intros v v' H. apply rt_step, g_local, H.
Qed.

Lemma p_activate_gen R ew : closed R -> (forall e, In e raised_codes -> pres R (abort_with ew e)) ->
  (forall v i x, 0 <= i < NUM_TASKS -> R v (put_task i (set_t_awake x (task_at v i)) v)) ->
  (forall v i p, 0 <= i < NUM_TASKS ->
    R v (put_task i (set_t_state (set_st_ip p (t_state (reset_task (task_at v i)))) (reset_task (task_at v i))) v)) ->
  (forall v i, 0 <= i < NUM_TASKS -> t_awake (task_at v i) = true -> R v (set_v_cur i v)) ->
  pres R (activate ew).
Proof.
  intros HR HA HW HS HSw. unfold activate.
  apply (p_bind R HR); [apply (p_s_pop R HR)|intro x]. apply (p_bind R HR); [apply (p_chk_i64 R HR)|intro y].
  cbv zeta. destruct (to_u64 y <? NUM_TASKS) eqn:L.
  - pose proof (to_u64_range y) as U. assert (B : 0 <= to_u64 y < NUM_TASKS) by lia.
    intros v a v' H. unfold set_awake, set_current_task, get_ip in H.
    rewrite bind_modify in H.  rewrite bind_gets, bind_gets, L in H.
    rewrite bind_modify in H.
    set (v1 := put_task (to_u64 y) (set_t_awake true (task_at v (to_u64 y))) v) in *.
    rewrite (bind_Ok _ _ _ _ _ (reset_eq _ _)) in H. unfold put_ip at 1 in H. rewrite bind_modify in H.
    apply bind_inv in H. destruct H as ([] & v2 & Hc & H).
    unfold modify in Hc. injection Hc as Hc. change (v_cur v) with (v_cur v1) in Hc.
    assert (Hv2 : v2 = (if v_cur v1 <? NUM_TASKS then set_v_cur (v_cur v1) else fun v => v)
       (set_v_err None (upd_cur (fun t => set_t_state (set_st_ip (ip v1) (t_state (reset_task t))) (reset_task t)) (set_v_cur (to_u64 y) v1)))).
    { rewrite <- Hc, set_ip_err_upd. destruct (v_cur v1 <? NUM_TASKS); reflexivity. }
    assert (Hf : R v1 v2).
    { assert (K : set_v_err None (put_task (to_u64 y) (set_t_state (set_st_ip (ip v1) (t_state (reset_task (task_at v1 (to_u64 y)))))
           (reset_task (task_at v1 (to_u64 y)))) v1) =
           set_v_cur (v_cur v1) (set_v_err None (upd_cur (fun t => set_t_state (set_st_ip (ip v1) (t_state (reset_task t))) (reset_task t))
             (set_v_cur (to_u64 y) v1)))) by (destruct v1; reflexivity).
      assert (R1 : R v1 (set_v_err None (put_task (to_u64 y) (set_t_state (set_st_ip (ip v1) (t_state (reset_task (task_at v1 (to_u64 y)))))
           (reset_task (task_at v1 (to_u64 y)))) v1))).
      { eapply (c_trans _ HR); [apply HS; exact B|]. apply (c_step _ HR), l_err; exact I. }
      rewrite Hv2. destruct (v_cur v1 <? NUM_TASKS); [rewrite <- K; exact R1|].
      eapply (c_trans _ HR); [exact R1|].
      match goal with |- R ?x ?z => replace z with (set_v_cur (to_u64 y) x) by (destruct v1; reflexivity) end.
      apply HSw; [exact B|]. unfold task_at, put_task, set_v_err. cbn. rewrite tget_tset_same.
      unfold v1, put_task. cbn. unfold task_at. cbn. rewrite tget_tset_same. reflexivity. }
    eapply (c_trans _ HR); [apply (HW v (to_u64 y) true B)|]. fold v1.
    eapply (c_trans _ HR); [exact Hf|].
    assert (P : pres R (bind r_pop (fun q => put_ip (to_u64 q)))).
    { apply (p_bind R HR); [apply (p_r_pop R HR)|intro q; apply (p_put_ip R HR)]. }
    eapply P. exact H.
  - apply (p_bind R HR); [apply (p_r_pop R HR)|intro q]. apply (p_bind R HR); [apply (p_put_ip R HR)|intros _]. apply HA. cbn; tauto.
Qed.

Section Run.
Variable R : vm -> vm -> Prop.
Hypothesis HR : closed R.
Hypothesis Hg : forall v v', gstep v v' -> R v v'.

Lemma p_prim fuel ew p : (forall i, pres R (ew i)) -> pres R (exec_prim fuel ew p).
Proof.
  intro Hew. assert (HA : forall e, In e raised_codes -> pres R (abort_with ew e)) by (intros e He; apply (p_abort R HR _ _ He); exact Hew).
  destruct (special p) eqn:S; [|apply (p_prim_plain R HR fuel ew HA _ S)].
  destruct p; try discriminate S; cbn [exec_prim].
  - apply (p_execute R HR); assumption.
  - apply (p_handler_store R HR). intros. apply Hg, g_handler.
  - apply (p_compile_token R HR); assumption.
  - apply (p_interpret_token R HR); assumption.
  - unfold pause. apply (p_bind R HR); [apply (p_gets R HR)|]. intro. apply (p_pause_loop R).
    intros. apply Hg, g_switch; assumption.
  - apply (p_activate_gen R); auto; intros; apply Hg; constructor; assumption.
  - apply (p_set_awake_word R HR); auto; intros; apply Hg; constructor; assumption.
  - apply (p_set_awake_word R HR); auto; intros; apply Hg; constructor; assumption.
  - apply (p_unmark R HR). intros. apply Hg, g_unmark; assumption.
Qed.

Lemma p_execute_word : forall fuel i, pres R (execute_word fuel i).
Proof.
  induction fuel as [|f IH]; intro i; cbn [execute_word]; [apply p_oof|].
  apply (p_bind R HR); [apply (p_set_wp R HR)|intros _]. apply (p_bind R HR); [apply (p_gets R HR)|intro n].
  destruct (i <? n); [|apply (p_abort R HR); [cbn; tauto|exact IH]].
  apply (p_bind R HR); [apply (p_word_at R HR)|intro w]. apply p_prim. exact IH.
Qed.
Lemma p_abort_word fuel e : In e raised_codes -> pres R (abort_with (execute_word fuel) e).
Proof. intro He. apply (p_abort R HR _ _ He). apply p_execute_word. Qed.
(** any exception, if the relation allows it *)
Lemma p_abort_any fuel e : (forall v, R v (set_v_err (Some e) v)) -> pres R (abort_with (execute_word fuel) e).
Proof.
  intro He. apply (p_bind R HR); [apply (p_clear_stacks R HR)|intros _].
  apply (p_bind R HR); [intros v a v' [= <- <-]; apply He|intros _].
  apply (p_bind R HR); [apply (p_gets R HR)|intro h]. apply (p_bind R HR); [apply (p_set_awp_wp R HR)|intros _]. apply p_execute_word.
Qed.
Lemma p_running : pres R running.
Proof.
  apply (p_bind R HR); [apply (p_get_ip R HR)|intro i]. apply (p_bind R HR); [apply (p_gets R HR)|intro d].
  destruct (_ <=? _); [|apply (p_ret R HR)]. apply (p_bind R HR); [apply (p_chk_u64 R HR)|intro]. apply (p_ret R HR).
Qed.
Lemma p_skip_cell : pres R skip_cell.
Proof.
  apply (p_bind R HR); [apply (p_get_ip R HR)|intro i]. apply (p_bind R HR); [apply (p_chk_u64 R HR)|intro].
  apply (p_put_ip R HR).
Qed.
Lemma p_run_step fuel : pres R (run_step fuel).
Proof.
  apply (p_bind R HR); [apply (p_get_ip R HR)|intro i]. apply (p_bind R HR); [apply (p_ds_get R HR)|intro x].
  apply (p_bind R HR); [apply p_skip_cell|intros _]. apply p_execute_word.
Qed.
Lemma p_run : forall fuel, pres R (run fuel).
Proof.
  induction fuel as [|f IH]; cbn [run]; [apply p_oof|].
  apply (p_bind R HR); [apply p_running|intros [|]]; [|apply (p_ret R HR)].
  apply (p_bind R HR); [apply p_run_step|intros _; exact IH].
Qed.
Lemma p_forth fuel : pres R (forth fuel).
Proof.
  apply (p_bind R HR); [apply p_running|intros [|]]; [|apply (p_ret R HR)].
  apply (p_bind R HR); [apply p_run_step|intros _; apply (p_ret R HR)].
Qed.
Lemma p_eval_round fuel : pres R (eval_round fuel).
Proof.
  assert (HA : forall e, In e raised_codes -> pres R (abort_with (execute_word fuel) e)) by (intro; apply p_abort_word).
  apply (p_bind R HR); [apply (p_parse_word R HR)|intros _]. apply (p_bind R HR); [apply (p_gets R HR)|intro t].
  assert (K : pres R (k <- is_compiling;; (if (k : bool) then compile_token fuel (execute_word fuel)
     else interpret_token fuel (execute_word fuel)) ;;;
    e <- gets v_err ;;
    match e with
    | Some _ => ret false
    | None =>
      run fuel ;;;
      check_stacks (execute_word fuel) ;;;
      e <- gets v_err ;;
      ret (match e with Some _ => false | None => true end)
    end)%M).
  { apply (p_bind R HR); [apply (p_gets R HR)|intro k].
    apply (p_bind R HR).
    { destruct k; [apply (p_compile_token R HR)|apply (p_interpret_token R HR)]; auto using p_execute_word. }
    intros _. apply (p_bind R HR); [apply (p_gets R HR)|intros [e|]]; [apply (p_ret R HR)|].
    apply (p_bind R HR); [apply p_run|intros _].
    apply (p_bind R HR); [apply (p_check_stacks R HR); exact HA|intros _].
    apply (p_bind R HR); [apply (p_gets R HR)|intro]. apply (p_ret R HR). }
  destruct t as [[|]|]; [apply (p_ret R HR)|exact K|exact K].
Qed.
Lemma p_evaluate_input : forall fuel, pres R (evaluate_input fuel).
Proof.
  induction fuel as [|f IH]; cbn [evaluate_input]; [apply p_oof|].
  apply (p_bind R HR); [apply p_eval_round|intros [|]]; [exact IH|apply (p_ret R HR)].
Qed.
Lemma p_set_source s : pres R (set_source s).
Proof.
  apply (p_bind R HR); [apply (p_expect_inbuf R HR)|intros _].
  apply (p_bind R HR); [apply (p_set_idx R HR); unfold two64; lia|intros _]. apply (p_put_inbuf R HR).
Qed.
Lemma p_push_source s : pres R (push_source s).
Proof. apply (p_bind R HR); [apply (p_expect_inbuf R HR)|intro o]. apply (p_put_inbuf R HR). Qed.
Lemma p_load_str fuel s : pres R (load_str fuel s).
Proof. apply (p_bind R HR); [apply p_set_source|intros _; apply p_evaluate_input]. Qed.
End Run.
End X.
