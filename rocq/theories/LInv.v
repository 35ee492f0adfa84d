(** Consequences: data space, stacks, dictionary index, isolation of tasks. *)
From Coq Require Import ZArith List Bool Lia ZifyBool ZifyNat Relations FMapPositive.
From Verif Require Import Base Stack Mem Parser Flt State CoreM IoM FloatM FileM Exec Boot.
From Verif Require Import LBase LStack Spec Spec13 LState LMem LMon LStep LPres Spec3 LExec.
Import ListNotations.
Open Scope Z_scope.
Open Scope m_scope.
Ltac Zify.zify_post_hook ::= Z.div_mod_to_equations.

Section I.
Context {E : Env}.
Implicit Types (v : vm) (t : task).

(** ** Well-formed states *)
Definition wf v : Prop :=
  ds_ok (v_ds v) /\ 0 <= v_cur v < NUM_TASKS /\
  forall i, 0 <= i < NUM_TASKS -> task_ok (task_at v i).

Lemma task_at_put i t v j : 0 <= i -> 0 <= j ->
  task_at (put_task i t v) j = if i =? j then t else task_at v j.
Proof.
  intros. unfold task_at, put_task. cbn. destruct (Z.eqb_spec i j) as [->|].
  - apply tget_tset_same.
  - apply tget_tset_other; auto.
Qed.
Lemma cur_in v : wf v -> task_ok (cur v).
Proof. intros (_ & Hc & Ht). apply Ht, Hc. Qed.

Lemma wf_put v i t : wf v -> 0 <= i < NUM_TASKS -> (task_ok (task_at v i) -> task_ok t) -> wf (put_task i t v).
Proof.
  intros (H1 & H2 & H3) Hi Ht. split; [exact H1|]. split; [exact H2|]. intros j Hj.
  rewrite task_at_put by lia. destruct (i =? j); [apply Ht|]; apply H3; assumption.
Qed.
Lemma reset_task_ok t p : task_ok t ->
  task_ok (set_t_state (set_st_ip p (t_state (reset_task t))) (reset_task t)).
Proof.
  unfold task_ok, len_ok. cbn. intros ((A & B & C & D) & F & G & H).
  repeat split; try lia; try assumption; try apply zlen_nonneg.
Qed.

Definition Rwf v v' : Prop := wf v -> wf v'.
Lemma Rwf_lstep v v' : lstep v v' -> Rwf v v'.
Proof.
  intros H Hw. destruct H.
  - apply wf_put; [exact Hw|apply Hw|apply H].
  - destruct Hw as (H1 & H2 & H3). split; [apply H, H1|]. split; assumption.
  - exact Hw.
  - exact Hw.
  - exact Hw.
  - destruct Hw as (A1 & A2 & A3). split; [rewrite H3; exact A1|]. split; [rewrite H; exact A2|].
    unfold task_at. rewrite H0. exact A3.
  - exact Hw.
Qed.
Lemma Rwf_closed : closed Rwf.
Proof. split; unfold Rwf; auto. intros; eapply Rwf_lstep; eassumption. Qed.
Lemma Rwf_gstep v v' : gstep v v' -> Rwf v v'.
Proof.
  intros H Hw. destruct H.
  - eapply Rwf_lstep; eassumption.
  - exact Hw.
  - exact Hw.
  - destruct Hw as (H1 & H2 & H3). split; [exact H1|]. split; [exact H|exact H3].
  - apply wf_put; auto.
  - apply wf_put; [exact Hw|exact H|apply reset_task_ok].
Qed.

Definition Pwf {A} (m : M A) := pres Rwf m.
Lemma wf_word fuel i : Pwf (execute_word fuel i). Proof. apply (p_execute_word Rwf Rwf_closed Rwf_gstep). Qed.

(** construction *)
Lemma wf_init addr cap cc o : 0 < addr -> 16 <= cap -> addr + cap < 2 ^ 63 -> wf (vm_init addr cap cc o).
Proof.
  intros. split; [|split].
  - unfold ds_ok, start, here, limit. cbn. lia.
  - cbn. unfold NUM_TASKS. lia.
  - intros i Hi. unfold NUM_TASKS in Hi.
    assert (i = 0 \/ i = 1 \/ i = 2 \/ i = 3 \/ i = 4) as D by lia.
    unfold task_at, vm_init, tget, tset, tempty. cbn [v_tasks].
    destruct D as [->|[->|[->|[->| ->]]]]; cbn; unfold task_ok, len_ok, two64, zlen; cbn; lia.
Qed.
Lemma p_add_word r : Pwf (add_word r).
Proof.
  assert (K : forall n a, Pwf (add_primitive n a)).
  { intros n a. apply (p_bind _ Rwf_closed); [apply (p_compile_name _ Rwf_closed)|intro].
    apply (p_bind _ Rwf_closed); [apply (p_ds_align _ Rwf_closed)|intro].
    apply (p_bind _ Rwf_closed); [apply (p_gets _ Rwf_closed)|intro].
    intros v x v' [= <- <-] H. exact H. }
  assert (W : forall i f, Pwf (upd_word i f)).
  { intros i f v x v' H Hw. unfold upd_word in H. destruct ((0 <=? i) && _); [|discriminate]. injection H as <- <-. exact Hw. }
  assert (I : Pwf immediate) by (apply (p_bind _ Rwf_closed); [apply (p_gets _ Rwf_closed)|intro; apply W]).
  assert (C : Pwf compile_only) by (apply (p_bind _ Rwf_closed); [apply (p_gets _ Rwf_closed)|intro; apply W]).
  destruct r as [[k n] a]. unfold add_word. 
  apply (p_bind _ Rwf_closed); [apply K|intro]. 
  destruct k; [apply (p_ret _ Rwf_closed)|exact I|exact C|].
  apply (p_bind _ Rwf_closed); [exact I|intro; exact C].
Qed.
Lemma p_find_expect n : Pwf (find_expect n).
Proof.
  apply (p_bind _ Rwf_closed); [apply (p_gets _ Rwf_closed)|intro].
  apply (p_bind _ Rwf_closed); [apply (p_find _ Rwf_closed)|intros [i|]]; [apply (p_ret _ Rwf_closed)|apply p_panic].
Qed.
Lemma p_set_ref f n : Pwf (set_ref f n).
Proof.
  apply (p_bind _ Rwf_closed); [apply p_find_expect|intro]. intros v x v' [= <- <-] H. exact H.
Qed.
Lemma p_add_words : Pwf add_words.
Proof.
  assert (T : forall l, Pwf (mapM_ add_word l)) by (intro; apply (p_mapM _ Rwf_closed); intro; apply p_add_word).
  assert (S0 : Pwf patch_compilation_semanticses).
  { apply (p_bind _ Rwf_closed); [apply p_find_expect|intro].
    intros v x v' H Hw. unfold upd_word in H. destruct ((0 <=? _) && _); [|discriminate]. injection H as <- <-. exact Hw. }
  assert (S1 : Pwf (mapM_ (fun r => set_ref (fst r) (snd r)) core_refs)).
  { apply (p_mapM _ Rwf_closed). intro. apply p_set_ref. }
  assert (S2 : Pwf (set_awake 0 true)).
  { intros v x v' [= <- <-] Hw. apply wf_put; [exact Hw|unfold NUM_TASKS; lia|]. intro H; exact H. }
  unfold add_words, add_core, add_output.
  assert (B : forall A (m : M A) B (k : A -> M B), Pwf m -> (forall a, Pwf (k a)) -> Pwf (bind m k))
    by (intros; apply (p_bind _ Rwf_closed); assumption).
  repeat (lazymatch goal with |- Pwf (bind _ _) => apply B; [|intro] end); solve [apply T | apply p_set_ref | assumption].
Qed.
Lemma wf_new fuel addr cap cc o v : 0 < addr -> 16 <= cap -> addr + cap < 2 ^ 63 ->
  vm_new fuel addr cap cc o = Ok v -> wf v.
Proof.
  intros H1 H2 H3 H. unfold vm_new in H.
  destruct ((add_words;;; load_core_fth fuel) (vm_init addr cap cc o)) as [[x v']| | |] eqn:Ev; try discriminate.
  injection H as <-.
  assert (P : Pwf (add_words;;; load_core_fth fuel)).
  { apply (p_bind _ Rwf_closed); [apply p_add_words|intro]. unfold load_core_fth.
    apply (p_bind _ Rwf_closed); [apply (p_load_str _ Rwf_closed Rwf_gstep)|intro].
    apply (p_bind _ Rwf_closed); [apply (p_gets _ Rwf_closed)|intros [e|]]; [apply p_panic|apply (p_ret _ Rwf_closed)]. }
  eapply P; [exact Ev|]. apply wf_init; assumption.
Qed.

Lemma reachable_wf v : reachable v -> wf v.
Proof.
  induction 1.
  - eapply wf_new; eassumption.
  - eapply (p_execute_word Rwf Rwf_closed Rwf_gstep); eassumption.
  - eapply (p_run Rwf Rwf_closed Rwf_gstep); eassumption.
  - eapply (p_forth Rwf Rwf_closed Rwf_gstep); eassumption.
  - eapply (p_evaluate_input Rwf Rwf_closed Rwf_gstep); eassumption.
  - eapply (p_load_str Rwf Rwf_closed Rwf_gstep); eassumption.
  - eapply (p_eval_round Rwf Rwf_closed Rwf_gstep); eassumption.
  - eapply (p_set_source Rwf Rwf_closed); eassumption.
  - eapply (p_push_source Rwf Rwf_closed); eassumption.
  - eapply (p_s_push Rwf Rwf_closed x v tt); [reflexivity|eassumption].
  - eapply (p_f_push Rwf Rwf_closed x v tt); [reflexivity|eassumption].
  - eapply (p_s_pop Rwf Rwf_closed v); [reflexivity|eassumption].
  - eapply (p_f_pop Rwf Rwf_closed v); [reflexivity|eassumption].
  - eapply (p_abort_any Rwf Rwf_closed Rwf_gstep); [|eassumption|exact IHreachable]; intros ? Hx; exact Hx.
  - exact IHreachable.
Qed.

(** ** C14 *)
Lemma here_inside v : reachable v -> start (v_ds v) <= here (v_ds v) <= limit (v_ds v).
Proof. intro H. apply reachable_wf in H. apply H. Qed.
Lemma reachable_ds v : reachable v -> ds_ok (v_ds v).
Proof. intro H. apply reachable_wf in H. apply H. Qed.

Definition Rds v v' : Prop :=
  ds_inner (v_ds v') = ds_inner (v_ds v) /\ ds_cap (v_ds v') = ds_cap (v_ds v) /\
  (ds_ok (v_ds v) -> ds_ok (v_ds v')).
Lemma Rds_lstep v v' : lstep v v' -> Rds v v'.
Proof.
  assert (K : forall u : vm, v_ds u = v_ds v -> Rds v u).
  { intros u Hu. unfold Rds. rewrite Hu. auto. }
  intro H. destruct H; try (apply K; reflexivity); [exact H|apply K; assumption].
Qed.
Lemma Rds_closed : closed Rds.
Proof.
  split.
  - intro. split; [reflexivity|]. split; auto.
  - intros v1 v2 v3 (A & B & C) (A' & B' & C'). split; [congruence|]. split; [congruence|]. auto.
  - apply Rds_lstep.
Qed.
Lemma Rds_gstep v v' : gstep v v' -> Rds v v'.
Proof.
  assert (K : forall u : vm, v_ds u = v_ds v -> Rds v u).
  { intros u Hu. unfold Rds. rewrite Hu. auto. }
  intro H. destruct H; [apply Rds_lstep; assumption|..]; apply K; reflexivity.
Qed.

Lemma word_here fuel i v v' : execute_word fuel i v = Ok (tt, v') -> ds_ok (v_ds v) ->
  start (v_ds v') = start (v_ds v) /\ limit (v_ds v') = limit (v_ds v) /\
  start (v_ds v') <= here (v_ds v') <= limit (v_ds v').
Proof.
  intros H Hd. destruct (p_execute_word Rds Rds_closed Rds_gstep _ _ _ _ _ H) as (A & B & C).
  unfold start, limit in *. rewrite A, B. split; [reflexivity|]. split; [reflexivity|].
  pose proof (proj1 (proj2 (C Hd))) as K. unfold start, limit in K. rewrite A, B in K. exact K.
Qed.

(** ** C63: stacks *)
Lemma reachable_fit v : reachable v -> 0 <= v_cur v < NUM_TASKS /\
  forall i, 0 <= i < NUM_TASKS -> stacks_fit (task_at v i).
Proof.
  intro H. apply reachable_wf in H. destruct H as (_ & H1 & H2). split; [exact H1|].
  intros i Hi. apply (H2 i Hi).
Qed.

(** ** C63: the dictionary index *)
Lemma index_push name w l : index_ok l -> index_ok (wl_push name w l).
Proof.
  intros (H0 & H1 & H2). unfold wl_push. cbv zeta. unfold index_ok. cbn [wl_len wl_tbl wl_buckets].
  set (h := hash name). set (k := h mod BUCKET_SIZE).
  assert (Hk : 0 <= k < 64) by (subst k; unfold BUCKET_SIZE; apply Z.mod_pos_bound; lia).
  assert (G : forall i w', 0 <= i -> i <> wl_len l ->
     wl_get (mkWl (tset (wl_tbl l) (wl_len l) w') (wl_len l + 1) (tset (wl_buckets l) k (wl_len l)) (wl_temp l) (wl_len l)) i = wl_get l i).
  { intros. unfold wl_get. cbn. apply tget_tset_other; lia. }
  assert (G' : forall w',
     wl_get (mkWl (tset (wl_tbl l) (wl_len l) w') (wl_len l + 1) (tset (wl_buckets l) k (wl_len l)) (wl_temp l) (wl_len l)) (wl_len l) = w').
  { intros. unfold wl_get. cbn. apply tget_tset_same. }
  split; [lia|]. split.
  - intros i Hi. cbv zeta. destruct (Z.eq_dec i (wl_len l)) as [->|N].
    + rewrite G'. cbn [w_link w_hash set_w_link set_w_hash].
      destruct (H2 k Hk) as [->|[B1 B2]]; [left; reflexivity|right]. split; [exact B1|].
      rewrite G by lia. rewrite B2. reflexivity.
    + rewrite G by lia. destruct (H1 i ltac:(lia)) as [L|[L1 L2]]; [left; exact L|right].
      split; [exact L1|]. rewrite G by lia. exact L2.
  - intros j Hj. cbv zeta. destruct (Z.eq_dec j k) as [->|N].
    + rewrite tget_tset_same. destruct (Z.eq_dec (wl_len l) 0) as [Z0|]; [left; exact Z0|right].
      split; [lia|]. rewrite G'. reflexivity.
    + rewrite tget_tset_other by lia. destruct (H2 j Hj) as [B|[B1 B2]]; [left; exact B|right].
      split; [lia|]. rewrite G by lia. exact B2.
Qed.
Lemma index_word i w l : 0 <= i -> wstep (wl_get l i) w -> index_ok l -> index_ok (set_wl_tbl (tset (wl_tbl l) i w) l).
Proof.
  intros Hi (S1 & S2 & _) (H0 & H1 & H2). unfold index_ok. cbn [wl_len wl_buckets set_wl_tbl].
  assert (G : forall j, 0 <= j -> w_link (wl_get (set_wl_tbl (tset (wl_tbl l) i w) l) j) = w_link (wl_get l j) /\
                                  w_hash (wl_get (set_wl_tbl (tset (wl_tbl l) i w) l) j) = w_hash (wl_get l j)).
  { intros j Hj. unfold wl_get at 1 3. cbn [wl_tbl set_wl_tbl]. destruct (Z.eq_dec i j) as [<-|].
    - rewrite tget_tset_same. auto.
    - rewrite tget_tset_other by lia. auto. }
  split; [exact H0|]. split.
  - intros j Hj. cbv zeta. rewrite (proj1 (G j ltac:(lia))), (proj2 (G j ltac:(lia))).
    destruct (H1 j Hj) as [L|[L1 L2]]; [left; exact L|right]. split; [exact L1|].
    pose proof (proj2 (G (w_link (wl_get l j)) ltac:(lia))) as Q. rewrite Q. exact L2.
  - intros k Hk. cbv zeta. destruct (H2 k Hk) as [L|[L1 L2]]; [left; exact L|right]. split; [exact L1|].
    pose proof (proj2 (G (tget 0 (wl_buckets l) k) ltac:(lia))) as Q. rewrite Q. exact L2.
Qed.

Definition Ridx v v' : Prop := index_ok (v_wl v) -> index_ok (v_wl v').
Lemma Ridx_closed : closed Ridx.
Proof.
  split; unfold Ridx; auto. intros v v' H. destruct H; auto.
  - apply index_push.
  - apply index_word; [lia|assumption].
  - rewrite H2. auto.
Qed.

(** Every word except a marker keeps the index, if the words it executes do *)
Lemma index_kept fuel ew p v v' : p <> P_unmark ->
  (forall i u u', ew i u = Ok (tt, u') -> index_ok (v_wl u) -> index_ok (v_wl u')) ->
  exec_prim fuel ew p v = Ok (tt, v') -> index_ok (v_wl v) -> index_ok (v_wl v').
Proof.
  intros Hp Hew0. assert (Hew : forall i, pres Ridx (ew i)) by (intros i u [] u' H; exact (Hew0 i u u' H)).
  assert (HA : forall e, In e raised_codes -> pres Ridx (abort_with ew e)) by (intros e He; apply (p_abort _ Ridx_closed _ _ He); exact Hew).
  assert (P : pres Ridx (exec_prim fuel ew p)); [|intro H; exact (P _ _ _ H)].
  destruct (special p) eqn:S; [|apply (p_prim_plain Ridx Ridx_closed fuel ew HA _ S)].
  destruct p; try discriminate S; cbn [exec_prim].
  - apply (p_execute Ridx Ridx_closed); assumption.
  - apply (p_handler_store Ridx Ridx_closed). intros u h H. exact H.
  - apply (p_compile_token Ridx Ridx_closed); assumption.
  - apply (p_interpret_token Ridx Ridx_closed); assumption.
  - unfold pause. apply (p_bind Ridx Ridx_closed); [apply (p_gets Ridx Ridx_closed)|]. intro. apply (p_pause_loop Ridx).
    intros u i _ _ H. exact H.
  - apply (p_activate_gen Ridx); [apply Ridx_closed|exact HA|..]; unfold Ridx; auto.
  - apply (p_set_awake_word Ridx Ridx_closed); auto. unfold Ridx; auto.
  - apply (p_set_awake_word Ridx Ridx_closed); auto. unfold Ridx; auto.
  - congruence.
Qed.

(** A lookup in a well-formed index ends without indexing out of range *)
Lemma find_ends_loop h name v : index_ok (v_wl v) ->
  forall fuel i, 0 <= i < Z.max 1 (wl_len (v_wl v)) -> i < Z.of_nat fuel ->
  find_loop fuel h name i v <> OutOfFuel /\ find_loop fuel h name i v <> Panic PIndex.
Proof.
  intros (H0 & H1 & H2). induction fuel as [|f IH]; intros i Hi Hf; [lia|].
  cbn [find_loop]. destruct (i =? 0) eqn:Z0; [split; discriminate|].
  assert (Hw : word_at i v = Ok (wl_get (v_wl v) i, v)).
  { unfold word_at. replace ((0 <=? i) && (i <? wl_len (v_wl v))) with true by lia. reflexivity. }
  rewrite (bind_Ok _ _ _ _ _ Hw).
  assert (Hl : 0 <= w_link (wl_get (v_wl v) i) < i).
  { destruct (H1 i ltac:(lia)) as [L|[L _]]; lia. }
  destruct (negb (w_hidden (wl_get (v_wl v) i)) && (w_hash (wl_get (v_wl v) i) =? h)).
  - unfold bind, ds_get. 
    destruct (get_str chk (v_ds v) (w_nfa (wl_get (v_wl v) i))) as [nm|p| |] eqn:G; cbn [rbind].
    + cbn. destruct (eq_ignore_case nm name); [split; discriminate|]. apply IH; lia.
    + split; [discriminate|]. intros [= ->]. revert G. unfold get_str, get_usize. destruct in_ds; cbn; [|discriminate].
      unfold read_bytes. repeat match goal with |- context [if ?c then _ else _] => destruct c end; discriminate.
    + split; discriminate.
    + exfalso. revert G. unfold get_str, get_usize. destruct in_ds; cbn; [|discriminate].
      unfold read_bytes. repeat match goal with |- context [if ?c then _ else _] => destruct c end; discriminate.
  - rewrite bind_ret. apply IH; lia.
Qed.
Lemma find_ends v name fuel : index_ok (v_wl v) -> wl_len (v_wl v) < Z.of_nat fuel ->
  find fuel name v <> OutOfFuel /\ find fuel name v <> Panic PIndex.
Proof.
  intros H Hf. unfold find. cbv zeta. rewrite bind_gets.
  apply find_ends_loop; [exact H| |]; destruct H as (H0 & _ & H2);
    destruct (H2 (hash name mod BUCKET_SIZE)) as [B|[B _]]; try (unfold BUCKET_SIZE; apply Z.mod_pos_bound; lia); lia.
Qed.

(** ** C47: isolation *)
Definition Riso v v' : Prop := 0 <= v_cur v < NUM_TASKS -> keeps_other_tasks v v'.
Lemma Riso_lstep v v' : lstep v v' -> Riso v v'.
Proof.
  intros H Hc. destruct H; try (split; reflexivity).
  - split; [reflexivity|]. intros i Hi N. rewrite task_at_put by lia. destruct (Z.eqb_spec (v_cur v) i); congruence.
  - split; [exact H|]. intros i _ _. unfold task_at. rewrite H0. reflexivity.
Qed.
Lemma Riso_closed : closed Riso.
Proof.
  split.
  - intros v _. split; reflexivity.
  - intros v1 v2 v3 A B Hc. destruct (A Hc) as [A1 A2].
    assert (Hc2 : 0 <= v_cur v2 < NUM_TASKS) by (rewrite A1; exact Hc).
    destruct (B Hc2) as [B1 B2]. split; [congruence|]. intros i Hi N. rewrite B2 by (try assumption; congruence). apply A2; assumption.
  - exact Riso_lstep.
Qed.

(** with a handler that does not switch tasks *)
Definition quiet (p : prim) : bool :=
  match p with
  | P_pause | P_activate | P_suspend | P_resume | P_handler_store
  | P_execute | P_compile_token | P_interpret_token => false
  | _ => true
  end.
Definition quiet_at v i : Prop := wl_len (v_wl v) <= i \/ quiet (w_action (wl_get (v_wl v) i)) = true.
Definition quiet_handler v : Prop := 0 <= v_handler v /\ quiet_at v (v_handler v).
Definition Rq v v' : Prop :=
  0 <= v_cur v < NUM_TASKS -> quiet_handler v -> keeps_other_tasks v v' /\ quiet_handler v'.
Lemma defined_quiet p : defined_action p = true -> quiet p = true.
Proof. destruct p; cbn; congruence. Qed.
Lemma tget_tset_key {A} (d : A) m i j x :
  tget d (tset m i x) j = if Pos.eqb (tkey i) (tkey j) then x else tget d m j.
Proof.
  unfold tget, tset. destruct (Pos.eqb_spec (tkey i) (tkey j)) as [->|N].
  - rewrite PositiveMap.gss. reflexivity.
  - rewrite PositiveMap.gso by congruence. reflexivity.
Qed.
Lemma Rq_closed : closed Rq.
Proof.
  split.
  - intros v A B. split; [split; reflexivity|]. auto.
  - intros v1 v2 v3 A B C1 C2. destruct (A C1 C2) as (A1 & A2).
    assert (Hc2 : 0 <= v_cur v2 < NUM_TASKS) by (rewrite (proj1 A1); exact C1).
    destruct (B Hc2 A2) as (B1 & B2). split; [|auto].
    destruct A1 as [A1 A1']. destruct B1 as [B1 B1']. split; [congruence|]. intros i Hi N.
    rewrite B1' by (try assumption; congruence). apply A1'; assumption.
  - intros v v' H C1 (C2 & C2'). split; [apply Riso_lstep; assumption|].
    destruct H.
    + split; assumption.
    + split; assumption.
    + split; [exact C2|]. unfold quiet_at, wl_push, wl_get in *. cbn in *.
      rewrite tget_tset_key. destruct (Pos.eqb_spec (tkey (wl_len (v_wl v))) (tkey (v_handler v))) as [Eq|N].
      * right. apply defined_quiet. exact H.
      * destruct (Z.eq_dec (wl_len (v_wl v)) (v_handler v)) as [Eq|N']; [congruence|].
        destruct C2'; [left; lia|right; assumption].
    + split; [exact C2|]. unfold quiet_at, wl_get in *. cbn in *.
      destruct (Z.eq_dec i (v_handler v)) as [->|N].
      * right. rewrite tget_tset_same. destruct H0 as (_ & _ & _ & _ & _ & [->| ->]); [|reflexivity].
        destruct C2'; [lia|assumption].
      * rewrite tget_tset_other by lia. exact C2'.
    + split; assumption.
    + unfold quiet_handler, quiet_at in *. rewrite H1, H2. auto.
    + split; assumption.
Qed.

Lemma quiet_prim fuel ew p : quiet p = true -> (forall e, In e raised_codes -> pres Rq (abort_with ew e)) -> pres Rq (exec_prim fuel ew p).
Proof.
  intros Q HA. destruct (special p) eqn:S; [|apply (p_prim_plain Rq Rq_closed fuel ew HA _ S)].
  destruct p; try discriminate S; try discriminate Q. cbn [exec_prim].
  apply (p_unmark Rq Rq_closed). intros v w L T C1 (C2 & C2'). split; [split; reflexivity|].
  split; [exact C2|]. unfold quiet_at, wl_get in *. cbn. rewrite T.
  destruct C2'; [left; lia|right; assumption].
Qed.

Lemma quiet_word : forall fuel i v v', execute_word fuel i v = Ok (tt, v') -> quiet_at v i -> Rq v v'.
Proof.
  induction fuel as [|f IH]; intros i v v' H Hq; [discriminate H|]. cbn [execute_word] in H.
  assert (HA : forall e, In e raised_codes -> pres Rq (abort_with (execute_word f) e)).
  { intros e He. unfold abort_with.
    apply (p_bind Rq Rq_closed); [apply (p_clear_stacks Rq Rq_closed)|intros _].
    apply (p_bind Rq Rq_closed); [apply (p_set_error Rq Rq_closed); exact He|intros _].
    intros u [] u' Hu C1 C2. rewrite bind_gets in Hu. 
    destruct (bind_inv _ _ _ _ Hu) as (x & u1 & U1 & U2). 
    assert (Q1 : Rq u u1) by (eapply (p_set_awp_wp Rq Rq_closed); exact U1).
    assert (Q2 : quiet_at u1 (v_handler u)).
    { injection U1 as <- <-. exact (proj2 C2). }
    exact (c_trans _ Rq_closed _ _ _ Q1 (IH _ _ _ U2 Q2) C1 C2). }
  destruct (bind_inv _ _ _ _ H) as (x & v1 & V1 & V2).
  assert (R1 : Rq v v1) by (eapply (p_set_wp Rq Rq_closed); exact V1).
  assert (Q1 : quiet_at v1 i) by (injection V1 as <- <-; exact Hq).
  rewrite bind_gets in V2. cbn beta in V2.
  destruct (i <? wl_len (v_wl v1)) eqn:Hi.
  - destruct (bind_inv _ _ _ _ V2) as (w & v2 & W1 & W2).
    unfold word_at in W1. destruct ((0 <=? i) && (i <? wl_len (v_wl v1))); [|discriminate].
    injection W1 as <- <-. destruct Q1 as [Q1|Q1]; [lia|].
    exact (c_trans _ Rq_closed _ _ _ R1 (quiet_prim _ _ _ Q1 HA _ _ _ W2)).
  - exact (c_trans _ Rq_closed _ _ _ R1 (HA UNSUPPORTED_OPERATION ltac:(cbn; tauto) _ _ _ V2)).
Qed.

(** ** C47: the chain *)
Lemma gstep_task v v' : gstep v v' -> 0 <= v_cur v < NUM_TASKS -> task_step v v'.
Proof.
  intros H Hc. destruct H.
  - left. apply Riso_lstep; assumption.
  - left. split; reflexivity.
  - left. split; reflexivity.
  - right; left. exists i. auto.
  - right; right; left. exists i, x. auto.
  - right; right; right. eexists i, _, _. split; [exact H|].
    unfold reset_task. cbn. reflexivity.
Qed.
Definition Rchain v v' : Prop := 0 <= v_cur v < NUM_TASKS -> 0 <= v_cur v' < NUM_TASKS /\ task_steps v v'.
Lemma Rchain_gstep v v' : gstep v v' -> Rchain v v'.
Proof.
  intros H Hc. split; [|apply rt_step, gstep_task; assumption].
  destruct H; try exact Hc; [|exact H]. destruct H; try exact Hc. rewrite H. exact Hc.
Qed.
Lemma Rchain_closed : closed Rchain.
Proof.
  split.
  - intros v H. split; [exact H|apply rt_refl].
  - intros v1 v2 v3 A B H. destruct (A H) as [H2 S1]. destruct (B H2) as [H3 S2].
    split; [exact H3|]. eapply rt_trans; eassumption.
  - intros v v' H. apply Rchain_gstep, g_local, H.
Qed.
Lemma word_chain fuel i v v' : execute_word fuel i v = Ok (tt, v') -> Rchain v v'.
Proof. intro H. exact (p_execute_word Rchain Rchain_closed Rchain_gstep _ _ _ _ _ H). Qed.
Lemma load_chain fuel s v v' : load_str fuel s v = Ok (tt, v') -> Rchain v v'.
Proof. intro H. exact (p_load_str Rchain Rchain_closed Rchain_gstep _ _ _ _ _ H). Qed.
End I.
