(** Exceptions and tasks. *)
From Coq Require Import ZArith List Bool Lia ZifyBool ZifyNat Relations.
From Verif Require Import Base Stack Mem Parser Flt State CoreM IoM FloatM FileM Exec Boot.
From Verif Require Import LBase LStack Spec Spec4 LState LMem LMon LStep LPres Spec3 LExec LInv.
Import ListNotations.
Open Scope Z_scope.
Open Scope m_scope.
Ltac Zify.zify_post_hook ::= Z.div_mod_to_equations.

Section T.
Context {E : Env}.
Implicit Types (v : vm) (t : task).

(** ** Raising an exception *)
Definition aborted e v : vm :=
  set_v_err (Some e) (upd_cur (fun t =>
    set_t_state (set_st_awp (st_wp (t_state t)) (t_state t))
      (set_t_c (stack_reset (t_c t)) (set_t_f (stack_reset (t_f t)) (set_t_s (stack_reset (t_s t)) t)))) v).
Lemma abort_with_eq ew e v : abort_with ew e v = ew (v_handler v) (aborted e v).
Proof.
  destruct v. unfold abort_with, clear_stacks, set_error, aborted.
  repeat (rewrite ?bind_bind, ?bind_modify, ?bind_gets).
  unfold set_s, set_f, set_c, s_stk, f_stk, c_stk, set_awp, set_st, st, upd_cur, put_task, cur, task_at.
  cbn. rewrite !tget_tset_same, !tset_tset. cbn. reflexivity.
Qed.
Lemma fresh_reset {T} (s : stack T) : fresh_stack s (stack_reset s).
Proof. split; [reflexivity|]. split; [reflexivity|]. intro. unfold sget. cbn. apply tget_tempty. Qed.
Lemma aborted_raised e v : raised e v (aborted e v).
Proof.
  unfold aborted, raised, same_other_tasks, st. rewrite !cur_set_v_err, !cur_upd. cbn.
  repeat (split; [solve [reflexivity | apply fresh_reset]|]).
  split; [|repeat split].
  intros i Hi Hc N. change (task_at (upd_cur (fun t =>
    set_t_state (set_st_awp (st_wp (t_state t)) (t_state t))
      (set_t_c (stack_reset (t_c t)) (set_t_f (stack_reset (t_f t)) (set_t_s (stack_reset (t_s t)) t)))) v) i = task_at v i).
  unfold upd_cur. rewrite task_at_put by lia. destruct (Z.eqb_spec (v_cur v) i); congruence.
Qed.
Lemma abort_raises ew e v : exists v1, abort_with ew e v = ew (v_handler v) v1 /\ raised e v v1.
Proof. exists (aborted e v). split; [apply abort_with_eq|apply aborted_raised]. Qed.
Lemma abort_word_raises fuel ew v :
  exists v1, exec_prim fuel ew P_abort v = ew (v_handler v) v1 /\ raised (-1) v v1.
Proof. exists (aborted (-1) v). split; [apply abort_with_eq|apply aborted_raised]. Qed.

Lemma set_wp_upd x v : set_wp x v = upd_cur (fun t => set_t_state (set_st_wp x (t_state t)) t) v.
Proof. reflexivity. Qed.

Lemma word_at_eq v i : 0 <= i < wl_len (v_wl v) -> word_at i v = Ok (wl_get (v_wl v) i, v).
Proof. intro H. unfold word_at. replace ((0 <=? i) && (i <? wl_len (v_wl v))) with true by lia. reflexivity. Qed.

Lemma execute_word_eq f i v p : word_is v i p ->
  execute_word (S f) i v = exec_prim f (execute_word f) p (set_wp i v).
Proof.
  intros [H1 H2]. cbn [execute_word]. rewrite bind_modify, bind_gets.
  change (wl_len (v_wl (set_wp i v))) with (wl_len (v_wl v)).
  replace (i <? wl_len (v_wl v)) with true by lia.
  rewrite (bind_Ok _ _ _ _ _ (word_at_eq (set_wp i v) i H1)). change (wl_get (v_wl (set_wp i v)) i) with (wl_get (v_wl v) i).
  rewrite H2. reflexivity.
Qed.
Lemma execute_word_none f i v : wl_len (v_wl v) <= i ->
  execute_word (S f) i v = abort_with (execute_word f) UNSUPPORTED_OPERATION (set_wp i v).
Proof.
  intros H1. cbn [execute_word]. rewrite bind_modify, bind_gets.
  change (wl_len (v_wl (set_wp i v))) with (wl_len (v_wl v)).
  replace (i <? wl_len (v_wl v)) with false by lia. reflexivity.
Qed.

(** ** C42 *)
Lemma run_stops n v : st_ip (st v) < start (v_ds v) -> run (S n) v = Ok (tt, v).
Proof.
  intro H. cbn [run].
  assert (G : running v = Ok (false, v)).
  { unfold running, get_ip. rewrite bind_gets, bind_gets. unfold ip.
    replace (start (v_ds v) <=? st_ip (st v)) with false by lia. reflexivity. }
  rewrite (bind_Ok _ _ _ _ _ G). reflexivity.
Qed.
Lemma bye_stops f e v v1 : word_is v (v_handler v) P_bye -> 0 < start (v_ds v) ->
  abort_with (execute_word (S f)) e v = Ok (tt, v1) ->
  v_err v1 = Some e /\ forall n, run (S n) v1 = Ok (tt, v1).
Proof.
  intros Hw Hs H. rewrite abort_with_eq in H. 
  rewrite (execute_word_eq f _ (aborted e v) P_bye) in H by exact Hw.
  cbn [exec_prim] in H. injection H as <-. split; [reflexivity|]. intro n. apply run_stops.
  change (v_ds (set_ip 0 (set_wp (v_handler v) (aborted e v)))) with (v_ds v).
  unfold st, set_ip, set_st. rewrite cur_upd. cbn. exact Hs.
Qed.
Lemma stop_stops v : v_err v <> None -> st_ip (st v) < start (v_ds v) -> forall n, run (S n) v = Ok (tt, v).
Proof. intros _ H n. apply run_stops. exact H. Qed.

(** ** C43 *)
Definition simple_handlers : list prim := [P_noop; P_bye; P_left_bracket; P_right_bracket; P_me; P_nest].
Lemma simple_returns f e v p : In p simple_handlers -> word_is v (v_handler v) p -> 
  exists v', abort_with (execute_word (S f)) e v = Ok (tt, v').
Proof.
  intros Hp Hw. rewrite abort_with_eq. rewrite (execute_word_eq f _ (aborted e v) p) by exact Hw.
  unfold simple_handlers in Hp. cbn in Hp.
  repeat (destruct Hp as [<-|Hp]; [cbn [exec_prim]; try (eexists; reflexivity)|]); [|contradiction].
  unfold nest. rewrite bind_modify, bind_gets.
  match goal with |- context [st_wp (st ?u)] => assert (Hq : st_wp (st u) = v_handler v) end.
  { unfold st, set_r. rewrite cur_upd, set_wp_upd, cur_upd. reflexivity. }
  rewrite Hq. match goal with |- context [bind (word_at _) _ ?u] => 
    rewrite (bind_Ok _ _ _ _ _ (word_at_eq u (v_handler v) (proj1 Hw))) end.
  eexists. reflexivity.
Qed.

Lemma abort_handler_loops v : word_is v (v_handler v) P_abort ->
  forall f e, abort_with (execute_word f) e v = OutOfFuel.
Proof.
  intros Hw f. revert v Hw. induction f as [|f IH]; intros v Hw e; rewrite abort_with_eq; [reflexivity|].
  rewrite (execute_word_eq f _ (aborted e v) P_abort) by exact Hw. cbn [exec_prim]. unfold abort.
  change (v_handler v) with (v_handler (set_wp (v_handler v) (aborted e v))).
  apply (IH (set_wp (v_handler v) (aborted e v))). exact Hw.
Qed.
Lemma bad_handler_loops v : wl_len (v_wl v) <= v_handler v ->
  forall f e, abort_with (execute_word f) e v = OutOfFuel.
Proof.
  intros Hw f. revert v Hw. induction f as [|f IH]; intros v Hw e; rewrite abort_with_eq; [reflexivity|].
  rewrite (execute_word_none f _ (aborted e v)) by exact Hw.
  apply (IH (set_wp (v_handler v) (aborted e v))). exact Hw.
Qed.

(** ** pause *)
Lemma awake_eq v i : 0 <= i < NUM_TASKS -> awake v i = t_awake (task_at v i).
Proof. intro H. unfold awake. replace (i <? NUM_TASKS) with true by lia. reflexivity. Qed.
Lemma mod5 z : 0 <= z mod NUM_TASKS < NUM_TASKS.
Proof. apply Z.mod_pos_bound. unfold NUM_TASKS. lia. Qed.
Lemma pause_loop_next v i : forall k : nat, forall fuel c,
  (S k <= fuel)%nat -> 
  i = (c + 1 + Z.of_nat k) mod NUM_TASKS -> t_awake (task_at v i) = true ->
  (forall j, 1 <= j <= Z.of_nat k -> t_awake (task_at v ((c + j) mod NUM_TASKS)) = false) ->
  pause_loop fuel c v = Ok (tt, set_v_cur i v).
Proof.
  induction k as [|k IH]; intros fuel c Hf Hi Ha Hj; (destruct fuel as [|f]; [lia|]); cbn [pause_loop];
    rewrite bind_gets, awake_eq by apply mod5.
  - replace ((c + 1) mod NUM_TASKS) with i by (rewrite Hi; f_equal; lia).
    rewrite Ha. unfold set_current_task, modify.
    replace (i <? NUM_TASKS) with true; [reflexivity|]. symmetry. apply Z.ltb_lt. rewrite Hi. apply mod5.
  - rewrite (Hj 1) by lia. apply IH; [lia| |exact Ha|].
    + rewrite Hi. unfold NUM_TASKS. rewrite <- (Zplus_assoc ((c + 1) mod 5)), Zplus_mod_idemp_l. f_equal. lia.
    + intros j Hj'. replace (((c + 1) mod NUM_TASKS + j) mod NUM_TASKS) with ((c + (j + 1)) mod NUM_TASKS).
      * apply Hj. lia.
      * unfold NUM_TASKS. rewrite Zplus_mod_idemp_l. f_equal. lia.
Qed.
Lemma pause_next fuel ew v i : (5 <= fuel)%nat -> next_awake v i ->
  exec_prim fuel ew P_pause v = Ok (tt, set_v_cur i v).
Proof.
  intros Hf (k & Hk & Hi & Ha & Hj). cbn [exec_prim]. unfold pause. rewrite bind_gets.
  unfold NUM_TASKS in Hk.
  apply (pause_loop_next v i (Z.to_nat (k - 1))); [lia| |exact Ha|].
  - rewrite Hi. f_equal. lia.
  - intros j Hj'. apply Hj. lia.
Qed.

Lemma first_true (f : Z -> bool) : forall n : nat, (exists k, 1 <= k <= Z.of_nat n /\ f k = true) ->
  exists k, 1 <= k <= Z.of_nat n /\ f k = true /\ forall j, 1 <= j < k -> f j = false.
Proof.
  induction n as [|n IH]; intros (k & Hk & Hf); [lia|].
  destruct (f (Z.of_nat (S n))) eqn:Last.
  - destruct (Z.eq_dec k (Z.of_nat (S n))) as [->|N].
    + assert (D : (exists k, 1 <= k <= Z.of_nat n /\ f k = true) \/ (forall j, 1 <= j <= Z.of_nat n -> f j = false)).
      { clear. induction n as [|n IH]; [right; intros; lia|].
        destruct IH as [(k & Hk & Hf)|Hn]; [left; exists k; split; [lia|exact Hf]|].
        destruct (f (Z.of_nat (S n))) eqn:E; [left; exists (Z.of_nat (S n)); split; [lia|exact E]|].
        right. intros j Hj. destruct (Z.eq_dec j (Z.of_nat (S n))) as [->|]; [exact E|apply Hn; lia]. }
      destruct D as [D|D].
      * destruct (IH D) as (k & Hk' & Hf' & Hj). exists k. split; [lia|]. auto.
      * exists (Z.of_nat (S n)). split; [lia|]. split; [exact Last|]. intros j Hj. apply D. lia.
    + destruct IH as (k' & Hk' & Hf' & Hj); [exists k; split; [lia|exact Hf]|].
      exists k'. split; [lia|]. auto.
  - destruct IH as (k' & Hk' & Hf' & Hj).
    { exists k. split; [|exact Hf]. assert (k <> Z.of_nat (S n)) by congruence. lia. }
    exists k'. split; [lia|]. auto.
Qed.
Lemma next_exists v i : 0 <= v_cur v < NUM_TASKS -> 0 <= i < NUM_TASKS -> t_awake (task_at v i) = true ->
  exists j, next_awake v j.
Proof.
  intros Hc Hi Ha.
  destruct (first_true (fun k => t_awake (task_at v ((v_cur v + k) mod NUM_TASKS))) 5) as (k & Hk & Hf & Hj).
  { unfold NUM_TASKS in *. exists ((i - v_cur v - 1) mod 5 + 1).
    split; [lia|]. replace ((v_cur v + ((i - v_cur v - 1) mod 5 + 1)) mod 5) with i; [exact Ha|]. lia. }
  exists ((v_cur v + k) mod NUM_TASKS). exists k. unfold NUM_TASKS in *. auto.
Qed.
Lemma pause_returns_iff ew v : 0 <= v_cur v < NUM_TASKS ->
  ((exists fuel v', exec_prim fuel ew P_pause v = Ok (tt, v')) <->
   (exists i, 0 <= i < NUM_TASKS /\ t_awake (task_at v i) = true)).
Proof.
  intro Hc. split.
  - intros (fuel & v' & H). cbn [exec_prim] in H. unfold pause in H. rewrite bind_gets in H.
    revert H. generalize (v_cur v). induction fuel as [|f IH]; intros c H; [discriminate|].
    cbn [pause_loop] in H. rewrite bind_gets, awake_eq in H by apply mod5.
    destruct (t_awake (task_at v ((c + 1) mod NUM_TASKS))) eqn:A.
    + exists ((c + 1) mod NUM_TASKS). split; [apply mod5|exact A].
    + eapply IH. exact H.
  - intros (i & Hi & Ha). destruct (next_exists v i Hc Hi Ha) as (j & Hj).
    exists 5%nat, (set_v_cur j v). apply pause_next; [lia|exact Hj].
Qed.
Lemma pause_spins ew v : (forall i, 0 <= i < NUM_TASKS -> t_awake (task_at v i) = false) ->
  forall fuel, exec_prim fuel ew P_pause v = OutOfFuel.
Proof.
  intros Ha fuel. cbn [exec_prim]. unfold pause. rewrite bind_gets. generalize (v_cur v).
  induction fuel as [|f IH]; intro c; [reflexivity|]. cbn [pause_loop]. rewrite bind_gets, awake_eq by apply mod5.
  rewrite Ha by apply mod5. apply IH.
Qed.

(** ** no starvation *)
Lemma next_unique v i j : next_awake v i -> next_awake v j -> i = j.
Proof.
  intros (k & Hk & Hi & Ha & Hn) (k' & Hk' & Hi' & Ha' & Hn').
  destruct (Z.lt_trichotomy k k') as [L|[L|L]].
  - rewrite Hi in Ha. rewrite (Hn' k) in Ha by lia. discriminate.
  - subst. reflexivity.
  - rewrite Hi' in Ha'. rewrite (Hn k') in Ha' by lia. discriminate.
Qed.
Lemma pause_inv fuel ew v v' : exec_prim fuel ew P_pause v = Ok (tt, v') -> 0 <= v_cur v < NUM_TASKS ->
  next_awake v (v_cur v') /\ v' = set_v_cur (v_cur v') v.
Proof.
  intros H Hc.
  destruct (proj1 (pause_returns_iff ew v Hc) (ex_intro _ fuel (ex_intro _ v' H))) as (i & Hi & Ha).
  destruct (next_exists v i Hc Hi Ha) as (j & Hj).
  assert (K : v' = set_v_cur j v); [|subst v'; split; [exact Hj|reflexivity]].
  cbn [exec_prim] in H. unfold pause in H. rewrite bind_gets in H.
  destruct Hj as (k & Hk & Ej & Aj & Nj).
  assert (G : forall (f : nat) c (n : nat), j = (c + 1 + Z.of_nat n) mod NUM_TASKS -> 
     (forall m, 1 <= m <= Z.of_nat n -> t_awake (task_at v ((c + m) mod NUM_TASKS)) = false) ->
     pause_loop f c v = Ok (tt, v') -> v' = set_v_cur j v).
  { induction f as [|f IH]; intros c n Hn Hm Hp; [discriminate|]. cbn [pause_loop] in Hp.
    rewrite bind_gets, awake_eq in Hp by apply mod5. destruct n as [|n].
    - replace ((c + 1) mod NUM_TASKS) with j in Hp by (rewrite Hn; f_equal; lia). rewrite Aj in Hp.
      unfold set_current_task, modify in Hp. replace (j <? NUM_TASKS) with true in Hp; [injection Hp as <-; reflexivity|].
      symmetry. apply Z.ltb_lt. rewrite Hn. apply mod5.
    - rewrite (Hm 1) in Hp by lia. apply (IH _ n) in Hp; [exact Hp| |].
      + rewrite Hn. unfold NUM_TASKS. rewrite <- (Zplus_assoc ((c + 1) mod 5)), Zplus_mod_idemp_l. f_equal. lia.
      + intros m Hm'. replace (((c + 1) mod NUM_TASKS + m) mod NUM_TASKS) with ((c + (m + 1)) mod NUM_TASKS).
        * apply Hm. lia.
        * unfold NUM_TASKS. rewrite Zplus_mod_idemp_l. f_equal. lia. }
  apply (G fuel (v_cur v) (Z.to_nat (k - 1))); [rewrite Ej; f_equal; lia| |exact H].
  intros m Hm. apply Nj. lia.
Qed.

Lemma no_starvation (before after : nat -> vm) j :
  0 <= v_cur (before 0%nat) < NUM_TASKS -> 0 <= j < NUM_TASKS ->
  (forall n, exists fuel ew, exec_prim fuel ew P_pause (before n) = Ok (tt, after n)) ->
  (forall n, v_cur (before (S n)) = v_cur (after n)) ->
  (forall n, t_awake (task_at (before n) j) = true) ->
  exists n, (n < 5)%nat /\ v_cur (after n) = j.
Proof.
  intros H0 Hj Hp Hs Ha.
  assert (Hc : forall n, 0 <= v_cur (before n) < NUM_TASKS).
  { induction n as [|n IH]; [exact H0|]. rewrite Hs. destruct (Hp n) as (fuel & ew & P).
    destruct (pause_inv _ _ _ _ P IH) as ((k & _ & -> & _) & _). apply mod5. }
  assert (G : forall d : nat, forall m, (j - v_cur (before m) - 1) mod NUM_TASKS < Z.of_nat d ->
     exists n, (m <= n < m + d)%nat /\ v_cur (after n) = j).
  { induction d as [|d IH]; intros m Hd; [pose proof (mod5 (j - v_cur (before m) - 1)); lia|].
    destruct (Hp m) as (fuel & ew & P). destruct (pause_inv _ _ _ _ P (Hc m)) as ((k & Hk & Ek & Ak & Nk) & _).
    destruct (Z.eq_dec (v_cur (after m)) j) as [Eq|N]; [exists m; split; [lia|exact Eq]|].
    assert (Hm := Hc m). unfold NUM_TASKS in *.
    assert (Hlt : k < (j - v_cur (before m) - 1) mod 5 + 1).
    { destruct (Z.lt_trichotomy k ((j - v_cur (before m) - 1) mod 5 + 1)) as [L|[L|L]]; [exact L| |].
      - exfalso. apply N. rewrite Ek, L. lia.
      - exfalso. specialize (Nk ((j - v_cur (before m) - 1) mod 5 + 1) ltac:(lia)).
        replace ((v_cur (before m) + ((j - v_cur (before m) - 1) mod 5 + 1)) mod 5) with j in Nk by lia.
        rewrite Ha in Nk. discriminate. }
    destruct (IH (S m)) as (n & Hn & En).
    { rewrite Hs, Ek. lia. }
    exists n. split; [lia|exact En]. }
  destruct (G 5%nat 0%nat) as (n & Hn & En).
  { pose proof (mod5 (j - v_cur (before 0%nat) - 1)). unfold NUM_TASKS in *. lia. }
  exists n. split; [lia|exact En].
Qed.

(** ** suspend, resume, activate *)
Lemma task_number x : 1 <= x <= NUM_TASKS -> in_i64 (x - 1) = true /\ to_u64 (x - 1) = x - 1.
Proof. unfold NUM_TASKS. intro. split; [unfold in_i64, imin, imax; lia|unfold to_u64, two64; rewrite Z.mod_small; lia]. Qed.

Lemma set_awake_ok fuel ew (b : bool) v x rest :
  stack_has (t_s (cur v)) (x :: rest) -> 1 <= x <= NUM_TASKS -> 0 <= v_cur v < NUM_TASKS ->
  exists v', exec_prim fuel ew (if b then P_resume else P_suspend) v = Ok (tt, v') /\
    stack_has (t_s (cur v')) rest /\ t_awake (task_at v' (x - 1)) = b /\
    same_shared v v' /\ v_err v' = v_err v /\
    (forall i, 0 <= i < NUM_TASKS -> i <> x - 1 -> i <> v_cur v -> task_at v' i = task_at v i) /\
    (x - 1 <> v_cur v -> t_awake (cur v') = t_awake (cur v)) /\
    (forall i, 0 <= i < NUM_TASKS -> 
       t_state (task_at v' i) = t_state (task_at v i) /\ t_r (task_at v' i) = t_r (task_at v i) /\
       t_c (task_at v' i) = t_c (task_at v i) /\ t_f (task_at v' i) = t_f (task_at v i) /\
       (i <> v_cur v -> t_s (task_at v' i) = t_s (task_at v i))).
Proof.
  intros Hs Hx Hc. destruct (task_number x Hx) as [N1 N2].
  destruct (pop_has _ _ _ Hs) as (s' & P1 & P2 & P3).
  set (v1 := set_s s' v).
  assert (Hpop : s_pop v = Ok (x, v1)) by (apply s_pop_eq; exact P1).
  exists (put_task (x - 1) (set_t_awake b (task_at v1 (x - 1))) v1).
  assert (Ex : exec_prim fuel ew (if b then P_resume else P_suspend) v = set_awake_word ew b v) by (destruct b; reflexivity).
  split.
  { rewrite Ex. unfold set_awake_word. rewrite (bind_Ok _ _ _ _ _ Hpop).
    rewrite (bind_Ok _ _ _ _ _ (chk_i64_ok (x - 1) v1 ltac:(apply in_i64_true; exact N1))). cbv zeta. rewrite N2.
    replace (x - 1 <? NUM_TASKS) with true by lia. unfold set_awake, modify.
    replace (x - 1 <? NUM_TASKS) with true by lia. reflexivity. }
  assert (Hcur : forall t, v_cur (put_task (x - 1) t v1) = v_cur v) by reflexivity.
  assert (T1 : forall i, 0 <= i < NUM_TASKS -> task_at v1 i = if v_cur v =? i then set_t_s s' (cur v) else task_at v i).
  { intros i Hi. unfold v1, set_s, upd_cur. apply task_at_put; lia. }
  assert (T2 : forall i, 0 <= i < NUM_TASKS -> task_at (put_task (x - 1) (set_t_awake b (task_at v1 (x - 1))) v1) i =
     if x - 1 =? i then set_t_awake b (task_at v1 (x - 1)) else task_at v1 i) by (intros; apply task_at_put; lia).
  split.
  { unfold cur. rewrite Hcur, T2 by exact Hc. destruct (Z.eqb_spec (x - 1) (v_cur v)) as [Eq|].
    - rewrite Eq. cbn [t_s set_t_awake]. rewrite T1, Z.eqb_refl by exact Hc. exact P2.
    - rewrite T1, Z.eqb_refl by exact Hc. exact P2. }
  split; [rewrite T2, Z.eqb_refl by lia; reflexivity|].
  split; [repeat split|]. split; [reflexivity|]. split.
  { intros i Hi N N'. rewrite T2 by exact Hi.
    destruct (Z.eqb_spec (x - 1) i); [congruence|]. rewrite T1 by exact Hi. destruct (Z.eqb_spec (v_cur v) i); congruence. }
  split.
  { intro N. unfold cur at 1. rewrite Hcur, T2 by exact Hc. destruct (Z.eqb_spec (x - 1) (v_cur v)); [congruence|].
    rewrite T1, Z.eqb_refl by exact Hc. reflexivity. }
  intros i Hi. rewrite T2 by exact Hi.
  assert (B : task_at v1 i = task_at v i \/ (i = v_cur v /\ task_at v1 i = set_t_s s' (task_at v i))).
  { rewrite T1 by exact Hi. destruct (Z.eqb_spec (v_cur v) i) as [<-|]; [right; auto|left; reflexivity]. }
  destruct (Z.eqb_spec (x - 1) i) as [->|]; (destruct B as [->|[-> ->]]; cbn; repeat split; congruence).
Qed.

Lemma bad_number x : is_cell x -> ~ 1 <= x <= NUM_TASKS -> x <> - 2 ^ 63 -> in_i64 (x - 1) = true /\ (to_u64 (x - 1) <? NUM_TASKS) = false.
Proof. unfold is_cell, NUM_TASKS. intros H H1 H2. split; [unfold in_i64, imin, imax; lia|unfold to_u64, two64; lia]. Qed.

Lemma set_awake_bad fuel ew (b : bool) v x rest :
  stack_has (t_s (cur v)) (x :: rest) -> is_cell x -> ~ 1 <= x <= NUM_TASKS -> x <> - 2 ^ 63 ->
  exists v1, exec_prim fuel ew (if b then P_resume else P_suspend) v = abort_with ew (-24) v1 /\
    only_data_stack v v1 /\ stack_has (t_s (cur v1)) rest.
Proof.
  intros Hs Hx Hn Hm. destruct (bad_number x Hx Hn Hm) as [N1 N2].
  destruct (pop_has _ _ _ Hs) as (s' & P1 & P2 & P3).
  set (v1 := set_s s' v).
  assert (Hpop : s_pop v = Ok (x, v1)) by (apply s_pop_eq; exact P1).
  exists v1.
  assert (Ex : exec_prim fuel ew (if b then P_resume else P_suspend) v = set_awake_word ew b v) by (destruct b; reflexivity).
  split.
  { rewrite Ex. unfold set_awake_word. rewrite (bind_Ok _ _ _ _ _ Hpop).
    rewrite (bind_Ok _ _ _ _ _ (chk_i64_ok (x - 1) v1 ltac:(apply in_i64_true; exact N1))). cbv zeta. rewrite N2. reflexivity. }
  split; [apply only_data_set_s; exact P3|unfold v1; rewrite cur_set_s; exact P2].
Qed.

(** [activate] in closed form *)
Definition act (i : Z) v : vm :=
  let v1 := put_task i (set_t_awake true (task_at v i)) v in
  set_v_err None (put_task i (set_t_state (set_st_ip (ip v1) (t_state (reset_task (task_at v1 i)))) (reset_task (task_at v1 i))) v1).
Lemma activate_eq ew v v1 x : s_pop v = Ok (x, v1) -> 1 <= x <= NUM_TASKS -> 0 <= v_cur v1 < NUM_TASKS ->
  activate ew v = bind r_pop (fun q => put_ip (to_u64 q)) (act (x - 1) v1).
Proof.
  intros Hp Hx Hc. destruct (task_number x Hx) as [N1 N2].
  unfold activate. rewrite (bind_Ok _ _ _ _ _ Hp).
  rewrite (bind_Ok _ _ _ _ _ (chk_i64_ok (x - 1) v1 ltac:(apply in_i64_true; exact N1))). cbv zeta. rewrite N2.
  assert (L : (x - 1 <? NUM_TASKS) = true) by lia. rewrite L.
  unfold set_awake, set_current_task, get_ip. rewrite L. rewrite bind_modify, bind_gets, bind_gets, bind_modify.
  set (v2 := put_task (x - 1) (set_t_awake true (task_at v1 (x - 1))) v1).
  rewrite (bind_Ok _ _ _ _ _ (reset_eq _ _)). unfold put_ip at 1. rewrite bind_modify, bind_modify.
  change (v_cur v2) with (v_cur v1). replace (v_cur v1 <? NUM_TASKS) with true by lia.
  rewrite set_ip_err_upd. unfold act. fold v2.
  all: reflexivity.
Qed.

Lemma activate_ok fuel ew v x rest q rr :
  stack_has (t_s (cur v)) (x :: rest) -> stack_has (t_r (cur v)) (q :: rr) ->
  1 <= x <= NUM_TASKS -> 0 <= v_cur v < NUM_TASKS -> x - 1 <> v_cur v ->
  exists v', exec_prim fuel ew P_activate v = Ok (tt, v') /\
    restarted_at (st_ip (st v)) (task_at v (x - 1)) (task_at v' (x - 1)) /\
    same_shared v v' /\ v_err v' = None /\
    (forall i, 0 <= i < NUM_TASKS -> i <> x - 1 -> i <> v_cur v -> task_at v' i = task_at v i) /\
    stack_has (t_s (cur v')) rest /\ stack_has (t_r (cur v')) rr /\
    st v' = set_st_ip (to_u64 q) (st v) /\ t_awake (cur v') = t_awake (cur v) /\
    t_c (cur v') = t_c (cur v) /\ t_f (cur v') = t_f (cur v) /\ t_inbuf (cur v') = t_inbuf (cur v).
Proof.
  intros Hs Hr Hx Hc N. 
  destruct (pop_has _ _ _ Hs) as (s' & P1 & P2 & P3). destruct (pop_has _ _ _ Hr) as (r' & Q1 & Q2 & Q3).
  set (v1 := set_s s' v). assert (Hpop : s_pop v = Ok (x, v1)) by (apply s_pop_eq; exact P1).
  set (v2 := act (x - 1) v1).
  assert (C1 : cur v1 = set_t_s s' (cur v)) by apply cur_set_s.
  assert (T1 : task_at v1 (x - 1) = task_at v (x - 1)).
  { unfold v1, set_s, upd_cur. rewrite task_at_put by lia. destruct (Z.eqb_spec (v_cur v) (x - 1)); congruence. }
  set (v1' := put_task (x - 1) (set_t_awake true (task_at v1 (x - 1))) v1).
  assert (T1' : task_at v1' (x - 1) = set_t_awake true (task_at v (x - 1))).
  { unfold v1'. rewrite task_at_put, Z.eqb_refl, T1 by lia. reflexivity. }
  assert (C1' : cur v1' = cur v1).
  { unfold cur. change (v_cur v1') with (v_cur v1). unfold v1'. rewrite task_at_put by (try exact (proj1 Hc); lia).
    change (v_cur v1) with (v_cur v). destruct (Z.eqb_spec (x - 1) (v_cur v)); [congruence|reflexivity]. }
  assert (T2 : forall i, 0 <= i < NUM_TASKS -> task_at v2 i = if x - 1 =? i then 
     (set_t_state (set_st_ip (ip v1') (t_state (reset_task (task_at v1' (x - 1))))) (reset_task (task_at v1' (x - 1)))) else task_at v1' i).
  { intros i Hi. unfold v2, act. fold v1'. change (task_at (set_v_err None ?u) i) with (task_at u i). apply task_at_put; lia. }
  assert (C2 : cur v2 = cur v1).
  { unfold cur. change (v_cur v2) with (v_cur v). rewrite T2 by exact Hc.
    destruct (Z.eqb_spec (x - 1) (v_cur v)); [congruence|]. exact C1'. }
  assert (Hr2 : r_pop v2 = Ok (q, set_r r' v2)).
  { unfold r_pop, r_stk. rewrite C2, C1. cbn [t_r set_t_s]. rewrite Q1. reflexivity. }
  exists (set_ip (to_u64 q) (set_r r' v2)). 
  assert (C3 : cur (set_ip (to_u64 q) (set_r r' v2)) = set_t_state (set_st_ip (to_u64 q) (st v)) (set_t_r r' (set_t_s s' (cur v)))).
  { unfold set_ip, set_st. rewrite cur_upd. unfold st. rewrite cur_set_r, C2, C1. reflexivity. }
  assert (T3 : forall i, 0 <= i < NUM_TASKS -> i <> v_cur v -> task_at (set_ip (to_u64 q) (set_r r' v2)) i = task_at v2 i).
  { intros i Hi Ni. unfold set_ip, set_st, set_r, upd_cur. rewrite task_at_put by (try exact (proj1 Hc); lia).
    change (v_cur (put_task ?a ?b ?c)) with (v_cur c). change (v_cur v2) with (v_cur v). 
    destruct (Z.eqb_spec (v_cur v) i); [congruence|]. rewrite task_at_put by lia.
    destruct (Z.eqb_spec (v_cur v) i); congruence. }
  assert (I1 : ip v1' = st_ip (st v)) by (unfold ip, st; rewrite C1', C1; reflexivity).
  split.
  { cbn [exec_prim]. rewrite (activate_eq ew v v1 x Hpop Hx Hc). fold v2. rewrite (bind_Ok _ _ _ _ _ Hr2). reflexivity. }
  split.
  { rewrite T3, T2, Z.eqb_refl, T1', I1 by (try assumption; lia).
    unfold restarted_at, reset_task. cbn. repeat split. intro j. unfold sget. cbn. apply tget_tempty. }
  split; [repeat split|]. split; [reflexivity|]. split.
  { intros i Hi N1 N2. rewrite T3, T2 by assumption. destruct (Z.eqb_spec (x - 1) i); [congruence|].
    unfold v1'. rewrite task_at_put by lia. destruct (Z.eqb_spec (x - 1) i); [congruence|].
    unfold v1, set_s, upd_cur. rewrite task_at_put by lia. destruct (Z.eqb_spec (v_cur v) i); congruence. }
  unfold st at 1. rewrite C3. cbn. repeat split; try assumption; apply Q2 || apply P2.
Qed.

Lemma activate_bad fuel ew v x rest q rr :
  stack_has (t_s (cur v)) (x :: rest) -> stack_has (t_r (cur v)) (q :: rr) ->
  is_cell x -> ~ 1 <= x <= NUM_TASKS -> x <> - 2 ^ 63 ->
  exists v1, exec_prim fuel ew P_activate v = abort_with ew (-24) v1 /\
    stack_has (t_s (cur v1)) rest /\ stack_has (t_r (cur v1)) rr /\
    st v1 = set_st_ip (to_u64 q) (st v) /\ same_globals v v1 /\ v_ds v1 = v_ds v /\ same_other_tasks v v1.
Proof.
  intros Hs Hr Hx Hn Hm. destruct (bad_number x Hx Hn Hm) as [N1 N2].
  destruct (pop_has _ _ _ Hs) as (s' & P1 & P2 & P3). destruct (pop_has _ _ _ Hr) as (r' & Q1 & Q2 & Q3).
  set (v1 := set_s s' v). assert (Hpop : s_pop v = Ok (x, v1)) by (apply s_pop_eq; exact P1).
  assert (Hr2 : r_pop v1 = Ok (q, set_r r' v1)).
  { unfold r_pop, r_stk, v1. rewrite cur_set_s. cbn [t_r set_t_s]. rewrite Q1. reflexivity. }
  exists (set_ip (to_u64 q) (set_r r' v1)).
  assert (C3 : cur (set_ip (to_u64 q) (set_r r' v1)) = set_t_state (set_st_ip (to_u64 q) (st v)) (set_t_r r' (set_t_s s' (cur v)))).
  { unfold set_ip, set_st, v1. rewrite cur_upd. unfold st. rewrite cur_set_r, cur_set_s. reflexivity. }
  split.
  { cbn [exec_prim]. unfold activate. rewrite (bind_Ok _ _ _ _ _ Hpop).
    rewrite (bind_Ok _ _ _ _ _ (chk_i64_ok (x - 1) v1 ltac:(apply in_i64_true; exact N1))). cbv zeta. rewrite N2.
    rewrite (bind_Ok _ _ _ _ _ Hr2). reflexivity. }
  unfold st at 1. rewrite C3. cbn. repeat (split; [solve [apply P2 | apply Q2 | reflexivity | repeat split]|]).
  intros i Hi Hc N. unfold set_ip, set_st, set_r, v1, set_s, upd_cur.
  rewrite task_at_put by (try exact Hc; lia). change (v_cur _) with (v_cur v).
  destruct (Z.eqb_spec (v_cur v) i); [congruence|]. rewrite task_at_put by (try exact Hc; lia). change (v_cur _) with (v_cur v).
  destruct (Z.eqb_spec (v_cur v) i); [congruence|]. rewrite task_at_put by (try exact Hc; lia).
  destruct (Z.eqb_spec (v_cur v) i); congruence.
Qed.
End T.
