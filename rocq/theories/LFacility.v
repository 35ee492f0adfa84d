(** Proofs of the properties of GET and RELEASE. *)
From Coq Require Import ZArith List Bool String Lia ZifyBool ZifyNat.
From Verif Require Import Base Stack Mem Parser State CoreM Exec LBase LStack Spec Spec2 Spec4 Spec5 Spec7 Spec10 Spec15 Spec16 Spec18
  LState LMem LMon LMemWords LWords LTask LFuel LCode LRun LLib LLibWords LSafe.
Import ListNotations.
Open Scope Z_scope.
Open Scope m_scope.
Open Scope list_scope.
Ltac Zify.zify_post_hook ::= Z.div_mod_to_equations.

Section F.
Context {E : Env}.
Implicit Types (v w : vm).
Variable K : Z -> Prop.
Variable ix : prim -> Z.
Variables gt rl g h : Z.
Variable a : Z.
Local Notation fit := (fit K ix gt rl g h a).
Local Notation calling := (calling K g h a).
Local Notation elsewhere := (elsewhere K g h a).
Local Notation inside := (inside g h).
Local Notation proper := (proper K a).

Definition get_code_at v : Prop :=
  code_word K v g P_dup /\ code_word K v (g + 8) P_fetch /\ code_word K v (g + 16) P_zero_branch /\ code_cell K v (g + 24) (g + 56) /\
  code_word K v (g + 32) P_pause /\ code_word K v (g + 40) P_branch /\ code_cell K v (g + 48) g /\
  code_word K v (g + 56) P_me /\ code_word K v (g + 64) P_swap /\ code_word K v (g + 72) P_store /\ code_word K v (g + 80) P_exit.
Definition release_code_at v : Prop :=
  code_word K v h P_dup /\ code_word K v (h + 8) P_fetch /\ code_word K v (h + 16) P_me /\ code_word K v (h + 24) P_equals /\
  code_word K v (h + 32) P_zero_branch /\ code_cell K v (h + 40) (h + 96) /\ code_word K v (h + 48) P_lit /\ code_cell K v (h + 56) 0 /\
  code_word K v (h + 64) P_swap /\ code_word K v (h + 72) P_store /\ code_word K v (h + 80) P_branch /\ code_cell K v (h + 88) (h + 104) /\
  code_word K v (h + 96) P_p_drop /\ code_word K v (h + 104) P_exit.

Lemma cell_eq2 v c c' y y' : c = c' -> y = y' -> code_cell K v c y -> code_cell K v c' y'.
Proof. intros -> ->. auto. Qed.
Ltac lib_in := unfold lib_prims; cbn; tauto.
Lemma words_code v : facility_words K ix v gt rl g h -> addressable v /\ get_code_at v /\ release_code_at v.
Proof.
  clear a. intros (L & (_ & _ & HG) & (_ & _ & HR) & EG & ER). unfold body in *. rewrite EG in HG. rewrite ER in HR.
  destruct HG as (A & _ & HG), HR as (_ & _ & HR). split; [exact A|].
  unfold d_get, d_release, block in HG, HR.
  cbn [laid fin] in HG, HR. unfold wd in HG, HR. cbn [laid fin] in HG, HR.
  assert (W : forall p c c', In p lib_prims -> c = c' -> code_cell K v c (ix p) /\ 0 <= ix p < 2 ^ 63 -> code_word K v c' p).
  { intros p c c' I -> [C B]. exists (ix p). split; [exact C|]. split; [apply L; exact I|apply B]. }
  assert (W2 : forall p c c', c = c' -> code_word K v c p -> code_word K v c' p) by (intros p c c' ->; auto).
  split; [unfold get_code_at|unfold release_code_at].
  - destruct HG as ((((G1 & G2) & G3 & G4 & G5 & G6 & G7) & G8 & G9 & G10) & G11). all: repeat match goal with |- _ /\ _ => split end.
    all: first [eapply W; [lib_in| |eassumption]; lia | eapply W2; [|eassumption]; lia | match goal with H : code_cell _ _ _ _ |- _ => eapply cell_eq2; [| |exact H]; lia end].
  - destruct HR as ((R1 & R2 & R3 & R4 & R5 & R6 & ((R7 & R8 & _) & R9 & R10) & R11 & R12 & R13) & R14). all: repeat match goal with |- _ /\ _ => split end.
    all: first [eapply W; [lib_in| |eassumption]; lia | eapply W2; [|eassumption]; lia | match goal with H : code_cell _ _ _ _ |- _ => eapply cell_eq2; [| |exact H]; lia end].
Qed.

(** Eight bytes are a cell *)
Lemma bytes_val_cell d x : (forall k, 0 <= k < 8 -> 0 <= byte_at d (x + k) < 256) -> cell_at d x (cell_bytes_val d x) /\ 0 <= cell_bytes_val d x < two64.
Proof.
  clear K ix gt rl g h a. intro H. unfold cell_bytes_val. pose proof (H 0 ltac:(lia)) as H0. rewrite Z.add_0_r in H0.
  pose proof (H 1 ltac:(lia)). pose proof (H 2 ltac:(lia)). pose proof (H 3 ltac:(lia)).
  pose proof (H 4 ltac:(lia)). pose proof (H 5 ltac:(lia)). pose proof (H 6 ltac:(lia)). pose proof (H 7 ltac:(lia)). clear H.
  assert (D : forall b0 r, 0 <= b0 < 256 -> (b0 + 256 * r) / 256 = r).
  { intros b0 r Hb. rewrite (Z.mul_comm 256), Z.div_add by lia. rewrite Z.div_small by lia. lia. }
  assert (Mo : forall b0 r, 0 <= b0 < 256 -> (b0 + 256 * r) mod 256 = b0).
  { intros b0 r Hb. rewrite (Z.mul_comm 256), Z.mod_add by lia. apply Z.mod_small. lia. }
  split.
  - intros k Hk.
    assert (Hk' : k = 0 \/ k = 1 \/ k = 2 \/ k = 3 \/ k = 4 \/ k = 5 \/ k = 6 \/ k = 7) by lia.
    destruct Hk' as [->|[->|[->|[->|[->|[->|[->| ->]]]]]]].
    + rewrite Z.pow_0_r, Z.div_1_r, Z.add_0_r. rewrite Mo by lia. reflexivity.
    + change (256 ^ 1) with 256. rewrite D, Mo by lia. reflexivity.
    + change (256 ^ 2) with (256 * 256). rewrite <- !Z.div_div by lia. rewrite !D, Mo by lia. reflexivity.
    + change (256 ^ 3) with (256 * 256 * 256). rewrite <- !Z.div_div by lia. rewrite !D, Mo by lia. reflexivity.
    + change (256 ^ 4) with (256 * 256 * 256 * 256). rewrite <- !Z.div_div by lia. rewrite !D, Mo by lia. reflexivity.
    + change (256 ^ 5) with (256 * 256 * 256 * 256 * 256). rewrite <- !Z.div_div by lia. rewrite !D, Mo by lia. reflexivity.
    + change (256 ^ 6) with (256 * 256 * 256 * 256 * 256 * 256). rewrite <- !Z.div_div by lia. rewrite !D, Mo by lia. reflexivity.
    + change (256 ^ 7) with (256 * 256 * 256 * 256 * 256 * 256 * 256). rewrite <- !Z.div_div by lia.
      rewrite !D by lia. rewrite Z.mod_small by lia. reflexivity.
  - unfold two64. lia.
Qed.
Lemma some_cell d x : (forall k, start d <= k < limit d -> 0 <= byte_at d k < 256) -> start d <= x -> x + 8 <= limit d ->
  exists c, is_cell c /\ cell_at d x c.
Proof.
  clear K ix gt rl g h a. intros H H1 H2. destruct (bytes_val_cell d x) as [C B]; [intros k Hk; apply H; lia|].
  exists (to_i64 (cell_bytes_val d x)). split; [pose proof (to_i64_range (cell_bytes_val d x)); unfold is_cell, imin, imax in *; lia|].
  eapply cell_at_congr; [|exact C]. symmetry. apply (to_u64_to_i64 (cell_bytes_val d x)).
Qed.

(** ** Single steps *)
Lemma step_prim w w' c p : addressable w -> machine_step w w' -> st_ip (st w) = c -> code_word K w c p ->
  exists i f, exec_prim f (execute_word f) p (at_ i (c + 8) w) = Ok (tt, w').
Proof.
  intros A (_ & f & R) HI CW. destruct (step_word K w c p w A) as (i & _ & S1); [rewrite <- HI; apply continues_self|exact CW|].
  destruct CW as (i0 & C & W & B). destruct (step_cell K w c i0 w A) as [_ S0]; [rewrite <- HI; apply continues_self|exact C|destruct W; lia|].
  destruct f as [|f]; [rewrite S0 in R; discriminate R|]. rewrite S1 in R. eauto.
Qed.

(** Only the current task and the memory are touched *)
Definition moved w w' (c : Z) : Prop :=
  v_wl w' = v_wl w /\ v_cur w' = v_cur w /\ (forall t, 0 <= t -> t <> v_cur w -> task_at w' t = task_at w t) /\ st_ip (st w') = c.

Lemma moved_data w w' i c : 0 <= v_cur w -> only_data_stack (at_ i c w) w' -> moved w w' c /\ v_ds w' = v_ds w /\ t_r (cur w') = t_r (cur w).
Proof.
  intros H (G & D & O & (T1 & T2 & _) & R & _). destruct G as (G1 & _ & _ & G2 & _). 
  rewrite cur_at in *. unfold moved. split; [split; [exact G2|]; split; [exact G1|]; split|].
  - intros t H1 H2. rewrite O; [|exact H1|exact H|exact H2]. rewrite at_upd. apply task_at_upd; assumption.
  - unfold st. rewrite T2. reflexivity.
  - split; [exact D|exact R].
Qed.
Lemma moved_memory w w' i c : 0 <= v_cur w -> only_data_memory (at_ i c w) w' -> moved w w' c /\ t_r (cur w') = t_r (cur w).
Proof.
  intros H (G & O & (T1 & T2 & _) & R & _). destruct G as (G1 & _ & _ & G2 & _).
  rewrite cur_at in *. unfold moved. split; [split; [exact G2|]; split; [exact G1|]; split|].
  - intros t H1 H2. rewrite O; [|exact H1|exact H|exact H2]. rewrite at_upd. apply task_at_upd; assumption.
  - unfold st. rewrite T2. reflexivity.
  - exact R.
Qed.
Lemma moved_at w u i c : 0 <= v_cur w -> v_wl u = v_wl w -> v_cur u = v_cur w -> (forall t, 0 <= t -> t <> v_cur w -> task_at u t = task_at w t) ->
  moved w (at_ i c u) c.
Proof.
  intros H G1 G2 G3. unfold moved. split; [exact G1|]. split; [exact G2|]. split; [|rewrite st_at; reflexivity].
  intros t H1 H2. rewrite at_upd, task_at_upd; [apply G3; assumption|exact H1|lia|congruence].
Qed.

Section Steps.
Variables (w w' : vm) (c : Z).
Hypothesis HF : fit w.
Hypothesis HS : machine_step w w'.
Hypothesis HI : st_ip (st w) = c.
Lemma fit_addressable : addressable w.
Proof. apply words_code. apply HF. Qed.
Lemma fit_cur : 0 <= v_cur w < NUM_TASKS.
Proof. apply HF. Qed.

Lemma quiet_step p ins Q rest : code_word K w c p -> effect p ins Q -> stack_has (t_s (cur w)) (ins ++ rest) ->
  (forall outs, Q outs -> zlen (outs ++ rest) <= 255) ->
  moved w w' (c + 8) /\ v_ds w' = v_ds w /\ t_r (cur w') = t_r (cur w) /\ exists outs, Q outs /\ stack_has (t_s (cur w')) (outs ++ rest).
Proof.
  intros CW HE HT HL. destruct (step_prim w w' c p fit_addressable HS HI CW) as (i & f & X).
  destruct (HE f (execute_word f) (at_ i (c + 8) w) rest) as (outs & HQ & HO); [rewrite s_at; exact HT|].
  destruct (HO (HL outs HQ)) as (u & X1 & S1 & O1). assert (u = w') by congruence. subst u.
  destruct (moved_data w w' i (c + 8) (proj1 fit_cur) O1) as (M1 & M2 & M3). eauto 8.
Qed.
Lemma is_step p ins outs rest : code_word K w c p -> effect_is p ins outs -> stack_has (t_s (cur w)) (ins ++ rest) -> zlen (outs ++ rest) <= 255 ->
  moved w w' (c + 8) /\ v_ds w' = v_ds w /\ t_r (cur w') = t_r (cur w) /\ stack_has (t_s (cur w')) (outs ++ rest).
Proof.
  intros CW HE HT HL. destruct (quiet_step p ins (eq outs) rest CW HE HT) as (A1 & A2 & A3 & o & <- & A4); [intros ? <-; exact HL|]. auto.
Qed.
Lemma me_step rest : code_word K w c P_me -> stack_has (t_s (cur w)) rest -> zlen rest < 255 ->
  moved w w' (c + 8) /\ v_ds w' = v_ds w /\ t_r (cur w') = t_r (cur w) /\ stack_has (t_s (cur w')) (v_cur w + 1 :: rest).
Proof.
  intros CW HT HL. destruct (step_prim w w' c _ fit_addressable HS HI CW) as (i & f & X). pose proof fit_cur as HC. unfold NUM_TASKS in HC.
  assert (X' : s_push (v_cur w + 1) (at_ i (c + 8) w) = Ok (tt, w')).
  { rewrite <- X. cbn [exec_prim]. unfold me. rewrite bind_gets. change (v_cur (at_ i (c + 8) w)) with (v_cur w).
    rewrite to_i64_id by (unfold imin, imax; lia). reflexivity. }
  unfold s_push, modify, s_stk in X'. injection X' as X'. subst w'.
  destruct (moved_data w (set_s (push (t_s (cur (at_ i (c + 8) w))) (v_cur w + 1)) (at_ i (c + 8) w)) i (c + 8) (proj1 fit_cur)) as (M1 & M2 & M3).
  { apply only_data_set_s. apply push_high. pose proof (stack_has_len _ _ HT). rewrite s_at. pose proof (zlen_nonneg rest). lia. }
  split; [exact M1|]. split; [exact M2|]. split; [exact M3|]. rewrite cur_set_s. cbn [t_s set_t_s]. apply push_has; [rewrite s_at; exact HT|exact HL].
Qed.
Lemma fetch_step x d : code_word K w c P_fetch -> stack_has (t_s (cur w)) (x :: d) -> free_of K w x 8 ->
  moved w w' (c + 8) /\ v_ds w' = v_ds w /\ t_r (cur w') = t_r (cur w) /\ exists z, is_cell z /\ cell_at (v_ds w) x z /\ stack_has (t_s (cur w')) (z :: d).
Proof.
  intros CW HT (F1 & F2 & _). destruct (step_prim w w' c _ fit_addressable HS HI CW) as (i & f & X).
  destruct HF as (_ & D & B & _). destruct (some_cell (v_ds w) x B) as (z & Hz & Cz); [lia|lia|]. destruct D as (D1 & D2 & D3).
  destruct (fetch_ok f (execute_word f) (at_ i (c + 8) w) z x x d) as (u & X1 & S1 & O1);
    [split; [exact D1|split; assumption]|rewrite s_at; exact HT|apply addr_of_id; lia|exact F1|exact F2|exact Cz|exact Hz|].
  assert (u = w') by congruence. subst u.
  destruct (moved_data w w' i (c + 8) (proj1 fit_cur) O1) as (M1 & M2 & M3). eauto 10.
Qed.
Lemma store_step x y d : code_word K w c P_store -> stack_has (t_s (cur w)) (x :: y :: d) -> free_of K w x 8 ->
  moved w w' (c + 8) /\ same_memory_but (v_ds w) (v_ds w') x 8 /\ here (v_ds w') = here (v_ds w) /\ cell_at (v_ds w') x y /\ t_r (cur w') = t_r (cur w) /\
  stack_has (t_s (cur w')) d.
Proof.
  intros CW HT (F1 & F2 & _). destruct (step_prim w w' c _ fit_addressable HS HI CW) as (i & f & X).
  destruct HF as (_ & D & B & _). destruct D as (D1 & D2 & D3).
  destruct (store_ok f (execute_word f) (at_ i (c + 8) w) y x x d) as (u & X1 & S1 & C1 & M1 & G1 & O1);
    [split; [exact D1|split; assumption]|rewrite s_at; exact HT|apply addr_of_id; lia|exact F1|exact F2|].
  assert (u = w') by congruence. subst u.
  destruct (moved_memory w w' i (c + 8) (proj1 fit_cur) O1) as (M2 & M3). auto 8.
Qed.
Lemma branch_step x : code_word K w c P_branch -> code_cell K w (c + 8) x -> 0 <= x < 2 ^ 63 ->
  moved w w' x /\ v_ds w' = v_ds w /\ t_r (cur w') = t_r (cur w) /\ t_s (cur w') = t_s (cur w).
Proof.
  intros CW CC Hx. destruct (step_prim w w' c _ fit_addressable HS HI CW) as (i & f & X). cbn [exec_prim] in X.
  rewrite (branch_eq K w (c + 8) x i fit_addressable CC Hx) in X. injection X as <-.
  split; [apply moved_at; [apply fit_cur|reflexivity|reflexivity|reflexivity]|]. rewrite cur_at. auto.
Qed.
Lemma zbranch_step x y d : code_word K w c P_zero_branch -> code_cell K w (c + 8) x -> 0 <= x < 2 ^ 63 -> stack_has (t_s (cur w)) (y :: d) ->
  moved w w' (if y =? 0 then x else c + 16) /\ v_ds w' = v_ds w /\ t_r (cur w') = t_r (cur w) /\ stack_has (t_s (cur w')) d.
Proof.
  intros CW CC Hx HT. destruct (step_prim w w' c _ fit_addressable HS HI CW) as (i & f & X). cbn [exec_prim] in X.
  rewrite (zero_branch_eq K w (c + 8) x i y (drop_s 1 w) fit_addressable CC Hx) in X; [|exists d; auto]. injection X as <-.
  replace (c + 8 + 8) with (c + 16) by lia.
  split; [apply moved_at; [apply fit_cur|reflexivity|reflexivity|]; intros t Ht1 Ht2; apply task_at_upd; [exact Ht1|apply fit_cur|exact Ht2]|].
  rewrite cur_at. cbn [t_r t_s set_t_state]. unfold drop_s. rewrite cur_set_s. cbn [t_r t_s set_t_s]. split; [reflexivity|]. split; [reflexivity|].
  exact (drop_has _ [y] d HT).
Qed.
Lemma lit_step x d : code_word K w c P_lit -> code_cell K w (c + 8) x -> is_cell x -> stack_has (t_s (cur w)) d -> zlen d < 255 ->
  moved w w' (c + 16) /\ v_ds w' = v_ds w /\ t_r (cur w') = t_r (cur w) /\ stack_has (t_s (cur w')) (x :: d).
Proof.
  intros CW CC Hx HT HL. destruct (step_prim w w' c _ fit_addressable HS HI CW) as (i & f & X). cbn [exec_prim] in X.
  pose proof (stack_has_len _ _ HT) as L1. pose proof (zlen_nonneg d).
  rewrite (lit_eq K w (c + 8) x i fit_addressable CC Hx) in X by lia. injection X as <-.
  replace (c + 8 + 8) with (c + 16) by lia.
  split; [apply moved_at; [apply fit_cur|reflexivity|reflexivity|]; intros t Ht1 Ht2; apply task_at_upd; [exact Ht1|apply fit_cur|exact Ht2]|].
  rewrite cur_at. cbn [t_r t_s set_t_state]. unfold add_s. rewrite cur_set_s. cbn [t_r t_s set_t_s]. split; [reflexivity|]. split; [reflexivity|].
  rewrite <- add_item_push by lia. apply push_has; assumption.
Qed.
Lemma exit_step ra rs : code_word K w c P_exit -> stack_has (t_r (cur w)) (ra :: rs) -> 0 <= ra < 2 ^ 63 ->
  moved w w' ra /\ v_ds w' = v_ds w.
Proof.
  intros CW HT Hr. destruct (step_prim w w' c _ fit_addressable HS HI CW) as (i & f & X). cbn [exec_prim] in X.
  rewrite (exit_eq w i (c + 8) ra rs HT) in X. injection X as <-. rewrite to_u64_id by (unfold two64; lia).
  split; [apply moved_at; [apply fit_cur|reflexivity|reflexivity|]; intros t Ht1 Ht2; apply task_at_upd; [exact Ht1|apply fit_cur|exact Ht2]|reflexivity].
Qed.
Lemma pause_step : code_word K w c P_pause -> exists i j, 0 <= j < NUM_TASKS /\ t_awake (task_at w j) = true /\ w' = set_v_cur j (at_ i (c + 8) w).
Proof.
  intros CW. destruct (step_prim w w' c _ fit_addressable HS HI CW) as (i & f & X).
  destruct (pause_inv _ _ _ _ X fit_cur) as ((k & Hk & Ej & Aj & _) & E1). exists i, (v_cur w').
  assert (Hj : 0 <= v_cur w' < NUM_TASKS) by (rewrite Ej; apply mod5). split; [exact Hj|]. split; [|exact E1].
  rewrite at_upd in Aj. destruct (Z.eq_dec (v_cur w') (v_cur w)) as [Q|Q].
  - rewrite Q in *. unfold task_at, upd_cur, put_task in Aj. cbn in Aj. rewrite tget_tset_same in Aj. exact Aj.
  - rewrite task_at_upd in Aj; [exact Aj|lia|apply fit_cur|exact Q].
Qed.
End Steps.

(** ** The invariant *)
(** A task that is not running: elsewhere, or in the loop of GET *)
Definition parked v (t : task) : Prop := elsewhere v t \/ (ip_of t = g + 40 /\ calling v t).
(** The positions of the current task inside, with facility [x] *)
Inductive middle v (x : Z) (d : list Z) : Prop :=
| G1 : st_ip (st v) = g + 8 -> stack_has (t_s (cur v)) (x :: x :: d) -> middle v x d
| G2 z : st_ip (st v) = g + 16 -> is_cell z -> cell_at (v_ds v) x z -> stack_has (t_s (cur v)) (z :: x :: d) -> middle v x d
| G3 : st_ip (st v) = g + 32 -> stack_has (t_s (cur v)) (x :: d) -> middle v x d
| G4 : st_ip (st v) = g + 56 -> cell_at (v_ds v) x 0 -> stack_has (t_s (cur v)) (x :: d) -> middle v x d
| G5 : st_ip (st v) = g + 64 -> cell_at (v_ds v) x 0 -> stack_has (t_s (cur v)) (v_cur v + 1 :: x :: d) -> middle v x d
| G6 : st_ip (st v) = g + 72 -> cell_at (v_ds v) x 0 -> stack_has (t_s (cur v)) (x :: v_cur v + 1 :: d) -> middle v x d
| G7 : st_ip (st v) = g + 80 -> middle v x d
| R1 : st_ip (st v) = h + 8 -> stack_has (t_s (cur v)) (x :: x :: d) -> middle v x d
| R2 z : st_ip (st v) = h + 16 -> is_cell z -> cell_at (v_ds v) x z -> stack_has (t_s (cur v)) (z :: x :: d) -> middle v x d
| R3 z : st_ip (st v) = h + 24 -> is_cell z -> cell_at (v_ds v) x z -> stack_has (t_s (cur v)) (v_cur v + 1 :: z :: x :: d) -> middle v x d
| R4 z : st_ip (st v) = h + 32 -> (z <> 0 -> cell_at (v_ds v) x (v_cur v + 1)) -> stack_has (t_s (cur v)) (z :: x :: d) -> middle v x d
| R5 : st_ip (st v) = h + 48 -> cell_at (v_ds v) x (v_cur v + 1) -> stack_has (t_s (cur v)) (x :: d) -> middle v x d
| R6 : st_ip (st v) = h + 64 -> cell_at (v_ds v) x (v_cur v + 1) -> stack_has (t_s (cur v)) (0 :: x :: d) -> middle v x d
| R7 : st_ip (st v) = h + 72 -> cell_at (v_ds v) x (v_cur v + 1) -> stack_has (t_s (cur v)) (x :: 0 :: d) -> middle v x d
| R8 : st_ip (st v) = h + 80 -> middle v x d
| R9 : st_ip (st v) = h + 96 -> stack_has (t_s (cur v)) (x :: d) -> middle v x d
| R10 : st_ip (st v) = h + 104 -> middle v x d.
Definition place v : Prop := parked v (cur v) \/
  exists x d ra rs, zlen d <= 240 /\ proper v x /\ stack_has (t_r (cur v)) (ra :: rs) /\ 0 <= ra < 2 ^ 63 /\ ~ inside ra /\ middle v x d.
Definition owned v (o : list Z) : Prop :=
  (o = [] /\ cell_at (v_ds v) a 0) \/ exists t, 0 <= t < NUM_TASKS /\ o = [t] /\ cell_at (v_ds v) a (t + 1).
Definition sound v (o : list Z) : Prop :=
  fit v /\ (forall t, 0 <= t < NUM_TASKS -> t <> v_cur v -> parked v (task_at v t)) /\ place v /\ owned v o.

Lemma free_of_same v v' x n : start (v_ds v') = start (v_ds v) -> limit (v_ds v') = limit (v_ds v) -> free_of K v x n -> free_of K v' x n.
Proof. intros H1 H2. unfold free_of. rewrite H1, H2. auto. Qed.
Lemma calling_same v v' t t' : start (v_ds v') = start (v_ds v) -> limit (v_ds v') = limit (v_ds v) -> t_s t' = t_s t -> t_r t' = t_r t -> calling v t -> calling v' t'.
Proof.
  intros H1 H2 H3 H4 (x & d & r & rs & A1 & A2 & [A3 A3'] & A4 & A5). exists x, d, r, rs. rewrite H3, H4. split; [exact A1|]. split; [exact A2|].
  split; [split; [eapply free_of_same; eassumption|exact A3']|]. split; [exact A4|exact A5].
Qed.
Lemma parked_same v v' t t' : start (v_ds v') = start (v_ds v) -> limit (v_ds v') = limit (v_ds v) -> same_place t t' -> parked v t -> parked v' t'.
Proof.
  intros H1 H2 (P1 & P2 & P3) [[H|[H C]]|[H C]].
  - left. left. rewrite P1. exact H.
  - left. right. rewrite P1. split; [exact H|]. eapply calling_same; [exact H1|exact H2|exact P2|exact P3|exact C].
  - right. rewrite P1. split; [exact H|]. eapply calling_same; [exact H1|exact H2|exact P2|exact P3|exact C].
Qed.
Lemma same_place_refl t : same_place t t. Proof. split; [reflexivity|split; reflexivity]. Qed.
Lemma words_kept v v' : kept K v v' -> v_wl v' = v_wl v -> facility_words K ix v gt rl g h -> facility_words K ix v' gt rl g h.
Proof.
  intros HK HW (L & (A1 & A2 & A3) & (B1 & B2 & B3) & EG & ER). unfold facility_words, colon_word, library, body, word_of, word_is in *. rewrite HW.
  split; [exact L|]. split; [|split; [|split; assumption]].
  - split; [exact A1|]. split; [exact A2|]. eapply holds_kept; [exact HK|exact A3].
  - split; [exact B1|]. split; [exact B2|]. eapply holds_kept; [exact HK|exact B3].
Qed.
Lemma fit_same v v' : v_ds v' = v_ds v -> v_wl v' = v_wl v -> 0 <= v_cur v' < NUM_TASKS -> fit v -> fit v'.
Proof.
  intros HD HW HC (F1 & F2 & F3 & F4 & F5 & F6). split; [apply (words_kept v); [apply kept_eq; assumption|exact HW|exact F1]|]. rewrite HD.
  split; [exact F2|]. split; [exact F3|]. split; [apply (free_of_same v); [rewrite HD; reflexivity|rewrite HD; reflexivity|exact F4]|]. auto.
Qed.
Lemma fit_store v v' x y : same_memory_but (v_ds v) (v_ds v') x 8 -> here (v_ds v') = here (v_ds v) -> cell_at (v_ds v') x y -> free_of K v x 8 ->
  v_wl v' = v_wl v -> v_cur v' = v_cur v -> fit v -> fit v'.
Proof.
  intros SM HH HC (X1 & X2 & X3) HW HV (F1 & F2 & F3 & F4 & F5 & F6). pose proof SM as (S1 & S2 & S3).
  assert (HK : kept K v v').
  { split; [exact S1|]. split; [exact S2|]. split; [intros k Hk; destruct (X3 k Hk); apply S3; assumption|]. intros i p _ W. unfold word_is. rewrite HW. exact W. }
  split; [apply (words_kept v); assumption|]. split; [eapply same_ok; eassumption|].
  split.
  - intros k Hk. rewrite S1, S2 in Hk. destruct (Z.lt_ge_cases k x) as [L|L]; [rewrite S3 by lia; apply F3; exact Hk|].
    destruct (Z.le_gt_cases (x + 8) k) as [L'|L']; [rewrite S3 by lia; apply F3; exact Hk|].
    replace k with (x + (k - x)) by lia. rewrite HC by lia. apply Z.mod_pos_bound. lia.
  - split; [apply (free_of_same v); assumption|]. rewrite HV. auto.
Qed.
Lemma parked_outside v t : ~ inside (ip_of t) -> parked v t.
Proof. intro H. left. left. exact H. Qed.

(** A step that does not touch the memory *)
Lemma sound_quiet v v' c o : sound v o -> moved v v' c -> v_ds v' = v_ds v -> place v' -> sound v' o.
Proof.
  intros (F & P & _ & O) (M1 & M2 & M3 & M4) HD HP. split; [eapply fit_same; [exact HD|exact M1|rewrite M2; apply F|exact F]|]. split; [|split; [exact HP|unfold owned; rewrite HD; exact O]].
  intros t Ht Hn. rewrite M2 in Hn. rewrite (M3 t (proj1 Ht) Hn). eapply parked_same; [rewrite HD; reflexivity|rewrite HD; reflexivity|apply same_place_refl|apply P; assumption].
Qed.
Lemma top_same v x y d d' : stack_has (t_s (cur v)) (x :: d) -> stack_has (t_s (cur v)) (y :: d') -> x = y.
Proof. intros H1 H2. rewrite <- (stack_has_nth _ _ 0 x H1 eq_refl). apply (stack_has_nth _ _ 0 y H2 eq_refl). Qed.
Definition outcome3 v v' (o : list Z) : Prop :=
  (taking g a v -> sound v' (v_cur v :: o)) /\ (giving h a v -> sound v' (remove Z.eq_dec (v_cur v) o)) /\ (~ taking g a v -> ~ giving h a v -> sound v' o).
Lemma outcome_quiet v v' o : st_ip (st v) <> g + 72 -> st_ip (st v) <> h + 72 -> sound v' o -> outcome3 v v' o.
Proof. intros H1 H2 H. split; [intros [X _]; contradiction|]. split; [intros [X _]; contradiction|auto]. Qed.
Lemma code_bounds v c x : fit v -> code_cell K v c x -> 0 < c /\ c + 8 < 2 ^ 63.
Proof. intros F C. eapply code_range; [apply fit_addressable; exact F|exact C]. Qed.
Lemma word_bounds v c p : fit v -> code_word K v c p -> 0 < c /\ c + 8 < 2 ^ 63.
Proof. intros F (i & C & _). eapply code_bounds; eassumption. Qed.
Lemma cell_small v x y z : cell_at (v_ds v) x y -> cell_at (v_ds v) x z -> - 2 ^ 63 <= y < 2 ^ 63 -> - 2 ^ 63 <= z < 2 ^ 63 -> y = z.
Proof. intros H1 H2 B1 B2. eapply cell_at_unique; [exact B1|exact B2|exact H1|exact H2]. Qed.

(** Storing to the facility *)
Lemma sound_store v v' o x y d ra rs c : sound v o -> moved v v' c -> same_memory_but (v_ds v) (v_ds v') x 8 -> here (v_ds v') = here (v_ds v) ->
  cell_at (v_ds v') x y -> proper v x -> zlen d <= 240 -> stack_has (t_r (cur v')) (ra :: rs) -> 0 <= ra < 2 ^ 63 -> ~ inside ra ->
  (proper v' x -> middle v' x d) ->
  forall o', (x = a -> owned v' o') -> (x <> a -> o' = o) -> sound v' o'.
Proof.
  intros (F & P & _ & O) (M1 & M2 & M3 & M4) SM HH HC (X1 & X2) Hd HR Hra Hin HM o' H1 H2. pose proof SM as (S1 & S2 & S3).
  split; [eapply fit_store; eassumption|]. assert (PX : proper v' x) by (split; [apply (free_of_same v); assumption|exact X2]). split.
  - intros t Ht Hn. rewrite M2 in Hn. rewrite (M3 t (proj1 Ht) Hn). eapply parked_same; [exact S1|exact S2|apply same_place_refl|apply P; assumption].
  - split; [right; exists x, d, ra, rs; auto 8|]. destruct (Z.eq_dec x a) as [Q|Q]; [apply H1; exact Q|]. rewrite (H2 Q).
    assert (KC : forall z, cell_at (v_ds v) a z -> cell_at (v_ds v') a z).
    { intros z. eapply cell_keep; [exact SM| |lia]. destruct F as (_ & _ & _ & (F & _) & _). lia. }
    destruct O as [[-> C]|(t & Ht & -> & C)]; [left|right; exists t]; auto.
Qed.

Theorem sound_step v v' o : sound v o -> machine_step v v' -> inside (st_ip (st v)) -> outcome3 v v' o.
Proof.
  intros S0 HS HIn. pose proof S0 as (F & P & PL & O). destruct (words_code v (proj1 F)) as (A & GC & RC).
  pose proof (proj1 (proj2 (proj2 (proj2 (proj2 F))))) as HC. pose proof (proj2 (proj2 (proj2 (proj2 (proj2 F))))) as DJ.
  destruct GC as (C0 & C1 & C2 & C3 & C4 & C5 & C6 & C7 & C8 & C9 & C10).
  destruct RC as (D0 & D1 & D2 & D3 & D4 & D5 & D6 & D7 & D8 & D9 & D10 & D11 & D12 & D13).
  pose proof (word_bounds _ _ _ F C0) as BG. pose proof (word_bounds _ _ _ F C10) as BG'.
  pose proof (word_bounds _ _ _ F D0) as BR. pose proof (word_bounds _ _ _ F D13) as BR'. unfold NUM_TASKS in HC.
  (* positions after a quiet step *)
  assert (QU : forall x d ra rs c, st_ip (st v) <> g + 72 -> st_ip (st v) <> h + 72 -> moved v v' c -> v_ds v' = v_ds v -> t_r (cur v') = t_r (cur v) ->
    zlen d <= 240 -> proper v x -> stack_has (t_r (cur v)) (ra :: rs) -> 0 <= ra < 2 ^ 63 -> ~ inside ra -> middle v' x d -> outcome3 v v' o).
  { intros x d ra rs c N1 N2 HM HD HR Hd (X1 & X2) HT Hra Hin Hmid. apply outcome_quiet; [exact N1|exact N2|].
    eapply sound_quiet; [exact S0|exact HM|exact HD|]. right. exists x, d, ra, rs. rewrite HR. split; [exact Hd|].
    split; [split; [apply (free_of_same v); [rewrite HD; reflexivity|rewrite HD; reflexivity|exact X1]|exact X2]|]. auto 6. }
  assert (PK : forall c, st_ip (st v) <> g + 72 -> st_ip (st v) <> h + 72 -> moved v v' c -> v_ds v' = v_ds v -> parked v' (cur v') -> outcome3 v v' o).
  { intros c N1 N2 HM HD HP. apply outcome_quiet; [exact N1|exact N2|]. eapply sound_quiet; [exact S0|exact HM|exact HD|left; exact HP]. }
  assert (ENTER : calling v (cur v) -> forall c, code_word K v c P_dup -> st_ip (st v) = c -> (c = g \/ c = h) -> outcome3 v v' o).
  { intros (x & d & r & rs & T1 & T2 & T3 & T4 & T5 & T6) c CW HI Hc.
    destruct (is_step v v' c F HS HI P_dup [x] [x; x] d CW (dup_effect x) T1) as (M & HD & HR & HT); [cbn [app]; rewrite !zlen_cons; lia|].
    eapply (QU x d r rs); [lia|lia|exact M|exact HD|exact HR|exact T2|exact T3|exact T4|exact T5|exact T6|]. pose proof (proj2 (proj2 (proj2 M))) as MI.
    destruct Hc as [-> | ->]; [apply G1|apply R1]; auto. }
  destruct PL as [[[N|[HI CA]]|[HI CA]]|(x & d & ra & rs & Hd & PX & HR & Hra & Hin & MID)].
  - contradiction.
  - destruct HI as [HI|HI]; [apply (ENTER CA g); auto|apply (ENTER CA h); auto].
  - (* the jump back *)
    destruct (branch_step v v' (g + 40) F HS HI g) as (M & HD & HR & HT); [exact C5|eapply cell_eq2; [| |exact C6]; lia|lia|]. unfold ip_of in HI.
    eapply PK; [unfold st; lia|unfold st; lia|exact M|exact HD|]. left. right. split; [left; apply M|].
    eapply calling_same; [rewrite HD; reflexivity|rewrite HD; reflexivity|exact HT|exact HR|exact CA].
  - pose proof (zlen_nonneg d) as Hd0.
    destruct MID as [HI T|z HI Hz CZ T|HI T|HI CZ T|HI CZ T|HI CZ T|HI|HI T|z HI Hz CZ T|z HI Hz CZ T|z HI CZ T|HI CZ T|HI CZ T|HI CZ T|HI|HI T|HI].
    + (* g + 8: @ *)
      destruct (fetch_step v v' _ F HS HI x (x :: d) C1 T (proj1 PX)) as (M & HD & HR' & z & Hz & Cz & T'). pose proof (proj2 (proj2 (proj2 M))) as MI.
      eapply (QU x d ra rs); [lia|lia|exact M|exact HD|exact HR'|exact Hd|exact PX|exact HR|exact Hra|exact Hin|]. apply (G2 _ _ _ z); [lia|exact Hz|rewrite HD; exact Cz|exact T'].
    + (* g + 16: 0branch *)
      destruct (zbranch_step v v' _ F HS HI (g + 56) z (x :: d)) as (M & HD & HR' & T'); [exact C2|eapply cell_eq2; [| |exact C3]; lia|lia|exact T|]. pose proof (proj2 (proj2 (proj2 M))) as MI.
      eapply (QU x d ra rs); [lia|lia|exact M|exact HD|exact HR'|exact Hd|exact PX|exact HR|exact Hra|exact Hin|].
      destruct (Z.eqb_spec z 0) as [-> | Hn]; [apply G4; [lia|rewrite HD; exact CZ|exact T']|apply G3; [lia|exact T']].
    + (* g + 32: pause *)
      destruct (pause_step v v' _ F HS HI C4) as (i & j & Hj & _ & ->). apply outcome_quiet; [lia|lia|].
      assert (TA : forall t, 0 <= t < NUM_TASKS -> parked (set_v_cur j (at_ i (g + 32 + 8) v)) (task_at (set_v_cur j (at_ i (g + 32 + 8) v)) t)).
      { intros t Ht. change (task_at (set_v_cur j (at_ i (g + 32 + 8) v)) t) with (task_at (at_ i (g + 32 + 8) v) t). destruct (Z.eq_dec t (v_cur v)) as [-> | Hn].
        - change (task_at (at_ i (g + 32 + 8) v) (v_cur v)) with (cur (at_ i (g + 32 + 8) v)). rewrite cur_at. right. split; [unfold ip_of; cbn; lia|].
          exists x, d, ra, rs. split; [exact T|]. split; [exact Hd|]. split; [exact PX|]. split; [exact HR|]. auto.
        - rewrite at_upd, task_at_upd; [|apply Ht|apply HC|exact Hn]. eapply parked_same; [reflexivity|reflexivity|apply same_place_refl|apply P; assumption]. }
      split; [apply (fit_same v); [reflexivity|reflexivity|exact Hj|exact F]|]. split; [intros t Ht _; apply TA; exact Ht|]. split; [left; apply TA; exact Hj|exact O].
    + (* g + 56: me *)
      destruct (me_step v v' _ F HS HI (x :: d) C7 T) as (M & HD & HR' & T'); [rewrite zlen_cons; lia|]. pose proof (proj2 (proj2 (proj2 M))) as MI.
      eapply (QU x d ra rs); [lia|lia|exact M|exact HD|exact HR'|exact Hd|exact PX|exact HR|exact Hra|exact Hin|].
      apply G5; [lia|rewrite HD; exact CZ|]. rewrite (proj1 (proj2 M)). exact T'.
    + (* g + 64: swap *)
      destruct (is_step v v' _ F HS HI P_swap [v_cur v + 1; x] [x; v_cur v + 1] d C8 (swap_effect x (v_cur v + 1)) T) as (M & HD & HR' & T'); [cbn [app]; rewrite !zlen_cons; lia|].
      pose proof (proj2 (proj2 (proj2 M))) as MI.
      eapply (QU x d ra rs); [lia|lia|exact M|exact HD|exact HR'|exact Hd|exact PX|exact HR|exact Hra|exact Hin|].
      apply G6; [lia|rewrite HD; exact CZ|]. rewrite (proj1 (proj2 M)). exact T'.
    + (* g + 72: ! *)
      destruct (store_step v v' _ F HS HI x (v_cur v + 1) d C9 T (proj1 PX)) as (M & SM & HH & HCv & HR' & T'). pose proof (proj2 (proj2 (proj2 M))) as MI.
      pose proof (sound_store v v' o x (v_cur v + 1) d ra rs _ S0 M SM HH HCv PX Hd ltac:(rewrite HR'; exact HR) Hra Hin ltac:(intros _; apply G7; lia)) as SS.
      split; [|split; [intros [X _]; lia|]].
      * intros [_ (d' & X)]. assert (x = a) by (eapply top_same; eassumption). apply SS; [|contradiction]. intros _. subst x.
        destruct O as [[-> _]|(t & Ht & _ & C)]; [|exfalso; unfold NUM_TASKS in Ht; pose proof (cell_small v a 0 (t + 1) CZ C ltac:(lia) ltac:(lia)); lia].
        right. exists (v_cur v). auto.
      * intros NT _. apply SS; [|auto]. intros Q. exfalso. apply NT. split; [exact HI|]. exists (v_cur v + 1 :: d). rewrite <- Q. exact T.
    + (* g + 80: exit *)
      destruct (exit_step v v' _ F HS HI ra rs C10 HR Hra) as (M & HD). eapply PK; [lia|lia|exact M|exact HD|]. apply parked_outside. unfold ip_of. change (t_state (cur v')) with (st v').
      rewrite (proj2 (proj2 (proj2 M))). exact Hin.
    + (* h + 8: @ *)
      destruct (fetch_step v v' _ F HS HI x (x :: d) D1 T (proj1 PX)) as (M & HD & HR' & z & Hz & Cz & T'). pose proof (proj2 (proj2 (proj2 M))) as MI.
      eapply (QU x d ra rs); [lia|lia|exact M|exact HD|exact HR'|exact Hd|exact PX|exact HR|exact Hra|exact Hin|]. apply (R2 _ _ _ z); [lia|exact Hz|rewrite HD; exact Cz|exact T'].
    + (* h + 16: me *)
      destruct (me_step v v' _ F HS HI (z :: x :: d) D2 T) as (M & HD & HR' & T'); [rewrite !zlen_cons; lia|]. pose proof (proj2 (proj2 (proj2 M))) as MI.
      eapply (QU x d ra rs); [lia|lia|exact M|exact HD|exact HR'|exact Hd|exact PX|exact HR|exact Hra|exact Hin|].
      apply (R3 _ _ _ z); [lia|exact Hz|rewrite HD; exact CZ|]. rewrite (proj1 (proj2 M)). exact T'.
    + (* h + 24: = *)
      destruct (quiet_step v v' _ F HS HI P_equals [v_cur v + 1; z] _ (x :: d) D3 (equals_spec z (v_cur v + 1)) T) as (M & HD & HR' & outs & (f & -> & Hf) & T').
      { intros outs (f & -> & _). cbn [app]. rewrite !zlen_cons. lia. }
      pose proof (proj2 (proj2 (proj2 M))) as MI.
      eapply (QU x d ra rs); [lia|lia|exact M|exact HD|exact HR'|exact Hd|exact PX|exact HR|exact Hra|exact Hin|].
      apply (R4 _ _ _ f); [lia| |exact T']. intros Hnz. rewrite HD, (proj1 (proj2 M)). destruct Hf as [[_ <-]|[? _]]; [exact CZ|contradiction].
    + (* h + 32: 0branch *)
      destruct (zbranch_step v v' _ F HS HI (h + 96) z (x :: d)) as (M & HD & HR' & T'); [exact D4|eapply cell_eq2; [| |exact D5]; lia|lia|exact T|]. pose proof (proj2 (proj2 (proj2 M))) as MI.
      eapply (QU x d ra rs); [lia|lia|exact M|exact HD|exact HR'|exact Hd|exact PX|exact HR|exact Hra|exact Hin|].
      destruct (Z.eqb_spec z 0) as [-> | Hn]; [apply R9; [lia|exact T']|apply R5; [lia|rewrite HD, (proj1 (proj2 M)); apply CZ; exact Hn|exact T']].
    + (* h + 48: 0 *)
      destruct (lit_step v v' _ F HS HI 0 (x :: d)) as (M & HD & HR' & T'); [exact D6|eapply cell_eq2; [| |exact D7]; lia|red; lia|exact T|rewrite zlen_cons; lia|]. pose proof (proj2 (proj2 (proj2 M))) as MI.
      eapply (QU x d ra rs); [lia|lia|exact M|exact HD|exact HR'|exact Hd|exact PX|exact HR|exact Hra|exact Hin|].
      apply R6; [lia|rewrite HD, (proj1 (proj2 M)); exact CZ|exact T'].
    + (* h + 64: swap *)
      destruct (is_step v v' _ F HS HI P_swap [0; x] [x; 0] d D8 (swap_effect x 0) T) as (M & HD & HR' & T'); [cbn [app]; rewrite !zlen_cons; lia|].
      pose proof (proj2 (proj2 (proj2 M))) as MI.
      eapply (QU x d ra rs); [lia|lia|exact M|exact HD|exact HR'|exact Hd|exact PX|exact HR|exact Hra|exact Hin|].
      apply R7; [lia|rewrite HD, (proj1 (proj2 M)); exact CZ|exact T'].
    + (* h + 72: ! *)
      destruct (store_step v v' _ F HS HI x 0 d D9 T (proj1 PX)) as (M & SM & HH & HCv & HR' & T'). pose proof (proj2 (proj2 (proj2 M))) as MI.
      pose proof (sound_store v v' o x 0 d ra rs _ S0 M SM HH HCv PX Hd ltac:(rewrite HR'; exact HR) Hra Hin ltac:(intros _; apply R8; lia)) as SS.
      split; [intros [X _]; lia|]. split.
      * intros [_ (d' & X)]. assert (x = a) by (eapply top_same; eassumption). apply SS; [|contradiction]. intros _. subst x.
        destruct O as [[-> C]|(t & Ht & -> & C)]; unfold NUM_TASKS in *.
        -- exfalso. pose proof (cell_small v a 0 (v_cur v + 1) C CZ ltac:(lia) ltac:(lia)). lia.
        -- left. split; [|exact HCv]. pose proof (cell_small v a (t + 1) (v_cur v + 1) C CZ ltac:(lia) ltac:(lia)). cbn. destruct (Z.eq_dec (v_cur v) t); [reflexivity|lia].
      * intros _ NT. apply SS; [|auto]. intros Q. exfalso. apply NT. split; [exact HI|]. exists (0 :: d). rewrite <- Q. exact T.
    + (* h + 80: branch *)
      destruct (branch_step v v' _ F HS HI (h + 104)) as (M & HD & HR' & HT); [exact D10|eapply cell_eq2; [| |exact D11]; lia|lia|]. pose proof (proj2 (proj2 (proj2 M))) as MI.
      eapply (QU x d ra rs); [lia|lia|exact M|exact HD|exact HR'|exact Hd|exact PX|exact HR|exact Hra|exact Hin|]. apply R10. lia.
    + (* h + 96: drop *)
      destruct (is_step v v' _ F HS HI P_p_drop [x] [] d D12 (drop_effect x) T) as (M & HD & HR' & T'); [cbn [app]; lia|].
      pose proof (proj2 (proj2 (proj2 M))) as MI.
      eapply (QU x d ra rs); [lia|lia|exact M|exact HD|exact HR'|exact Hd|exact PX|exact HR|exact Hra|exact Hin|]. apply R10. lia.
    + (* h + 104: exit *)
      destruct (exit_step v v' _ F HS HI ra rs D13 HR Hra) as (M & HD). eapply PK; [lia|lia|exact M|exact HD|]. apply parked_outside. unfold ip_of. change (t_state (cur v')) with (st v').
      rewrite (proj2 (proj2 (proj2 M))). exact Hin.
Qed.

Lemma interleaving_sound v o : interleaving K ix gt rl g h a v o -> sound v o.
Proof.
  induction 1 as [v F C P|v o v' _ IH N PO|v o v' _ IH HS T|v o v' _ IH HS T|v o v' _ IH HS HI N1 N2].
  - split; [exact F|]. split; [intros t Ht _; left; apply P; exact Ht|]. split; [left; left; apply P; apply F|left; auto].
  - destruct IH as (F & P & PL & O). destruct PO as (F' & HK & HB & HT).
    assert (PT : forall t, 0 <= t < NUM_TASKS -> parked v' (task_at v' t)).
    { intros t Ht. destruct (HT t Ht) as [[Hn SP]|EL]; [|left; exact EL]. eapply parked_same; [apply HK|apply HK|exact SP|apply P; assumption]. }
    split; [exact F'|]. split; [intros t Ht _; apply PT; exact Ht|]. split; [left; apply PT; apply F'|].
    assert (KC : forall z, cell_at (v_ds v) a z -> cell_at (v_ds v') a z) by (intros z C k Hk; rewrite HB by exact Hk; apply C; exact Hk).
    destruct O as [[-> C]|(t & Ht & -> & C)]; [left|right; exists t]; auto.
  - apply (sound_step v v' o IH HS); [|exact T]. destruct T as [-> _]. left. lia.
  - apply (sound_step v v' o IH HS); [|exact T]. destruct T as [-> _]. right. lia.
  - apply (sound_step v v' o IH HS HI); assumption.
Qed.
Lemma exclusive v o : interleaving K ix gt rl g h a v o ->
  (o = [] /\ cell_at (v_ds v) a 0) \/ exists t, 0 <= t < NUM_TASKS /\ o = [t] /\ cell_at (v_ds v) a (t + 1).
Proof. intro H. apply (interleaving_sound _ _ H). Qed.
End F.
