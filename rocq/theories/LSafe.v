(** Memory words stay inside the data space. *)
From Coq Require Import ZArith List Bool Lia ZifyBool ZifyNat.
From Verif Require Import Base Stack Mem Parser Flt State CoreM FloatM Exec LBase LStack Spec Spec2 LState LMem LMon LMemWords LFloat.
Import ListNotations.
Open Scope Z_scope.

Section W.
Context {E : Env}.

Lemma least_align8 a : least_multiple 8 a (align8 a).
Proof.
  pose proof (align8_range a). destruct (align8_mult a) as [k Hk]. split; [lia|]. split; [eauto|]. intros; lia.
Qed.
Lemma s_pop_any v : exists x s, s_pop v = Ok (x, set_s s v).
Proof. unfold s_pop. destruct (pop (s_stk v)) as [x s]. eauto. Qed.
Lemma s_pop2_any v : exists x s, s_pop2 v = Ok (x, set_s s v).
Proof. unfold s_pop2. destruct (pop2 (s_stk v)) as [x s]. eauto. Qed.
Lemma s_pop3_any v : exists x s, s_pop3 v = Ok (x, set_s s v).
Proof. unfold s_pop3. destruct (pop3 (s_stk v)) as [x s]. eauto. Qed.

Lemma c_fetch_safe fuel ew v : safe_access ew (exec_prim fuel ew P_c_fetch) v.
Proof.
  cbn [exec_prim]. unfold safe_access, c_fetch. destruct (s_pop_any v) as (x & s & Ep).
  rewrite (bind_Ok _ _ _ _ _ Ep), bind_gets. change (v_ds (set_s s v)) with (v_ds v).
  destruct ((start (v_ds v) <=? to_u64 x) && (to_u64 x <? limit (v_ds v))) eqn:Hb.
  - left. assert (Hg : get_u8 (v_ds v) (to_u64 x) = Ok (byte_at (v_ds v) (to_u64 x))).
    { unfold get_u8. rewrite (proj2 (in_ds_true _ _ 1)) by lia. reflexivity. }
    rewrite (bind_Ok _ _ _ _ _ (ds_get_eq (fun d => get_u8 d (to_u64 x)) _ (set_s s v) Hg)). eexists; reflexivity.
  - right. eexists; split; [reflexivity|reflexivity].
Qed.
Lemma c_store_safe fuel ew v : safe_access ew (exec_prim fuel ew P_c_store) v.
Proof.
  cbn [exec_prim]. unfold safe_access, c_store. destruct (s_pop2_any v) as ([x y] & s & Ep).
  rewrite (bind_Ok _ _ _ _ _ Ep), bind_gets. change (v_ds (set_s s v)) with (v_ds v).
  destruct ((start (v_ds v) <? to_u64 y) && (to_u64 y <? limit (v_ds v))) eqn:Hb.
  - left. assert (Hg : put_u8 (v_ds v) (to_u8 x) (to_u64 y) = Ok (set_byte (v_ds v) (to_u64 y) (to_u8 x))).
    { unfold put_u8. rewrite (proj2 (in_ds_true _ _ 1)) by lia. reflexivity. }
    rewrite (ds_upd_eq (fun d => put_u8 d (to_u8 x) (to_u64 y)) _ (set_s s v) Hg). eexists; reflexivity.
  - right. eexists; split; [reflexivity|reflexivity].
Qed.
Lemma store_safe fuel ew v x xa a rest : ds_ok (v_ds v) ->
  stack_has (t_s (cur v)) (xa :: x :: rest) -> addr_of xa a -> a + 8 < 2 ^ 64 ->
  safe_access ew (exec_prim fuel ew P_store) v.
Proof.
  intros Hd Hs Ha Hw.
  destruct (Z_lt_ge_dec (start (v_ds v)) a); [destruct (Z_le_gt_dec (a + 8) (limit (v_ds v)))|].
  - destruct (store_ok fuel ew v x xa a rest Hd Hs Ha) as (v' & Ev & _); [lia|lia|]. left. eauto.
  - destruct (store_bad fuel ew v x xa a rest Hs Ha Hw) as (v1 & Ev & (_ & F & _) & _); [lia|]. right. eauto.
  - destruct (store_bad fuel ew v x xa a rest Hs Ha Hw) as (v1 & Ev & (_ & F & _) & _); [lia|]. right. eauto.
Qed.
Lemma fetch_safe fuel ew v xa a rest : ds_ok (v_ds v) -> mem_ok (v_ds v) ->
  stack_has (t_s (cur v)) (xa :: rest) -> addr_of xa a -> a + 8 < 2 ^ 64 ->
  safe_access ew (exec_prim fuel ew P_fetch) v.
Proof.
  intros Hd Hm Hs Ha Hw.
  destruct (Z_lt_ge_dec (start (v_ds v)) a); [destruct (Z_le_gt_dec (a + 8) (limit (v_ds v)))|].
  - destruct (cell_exists (v_ds v) a Hm) as [Hc Hr].
    destruct (fetch_ok fuel ew v (to_i64 (cell_bytes_val (v_ds v) a)) xa a rest Hd Hs Ha) as (v' & Ev & _); [lia|lia| | |].
    + eapply cell_at_congr; [|exact Hc]. destruct (to_i64_mod (cell_bytes_val (v_ds v) a)) as [k Hk]. rewrite Hk at 1.
      unfold two64. change (2 ^ 64) with 18446744073709551616. rewrite Z.mod_add by discriminate. reflexivity.
    + unfold is_cell. pose proof (to_i64_range (cell_bytes_val (v_ds v) a)). unfold imin, imax in *. lia.
    + left. eauto.
  - destruct (fetch_bad fuel ew v xa a rest Hs Ha Hw) as (v1 & Ev & (_ & F & _) & _); [lia|]. right. eauto.
  - destruct (fetch_bad fuel ew v xa a rest Hs Ha Hw) as (v1 & Ev & (_ & F & _) & _); [lia|]. right. eauto.
Qed.
Lemma move_safe fuel ew v x1 x2 u a1 a2 rest : ds_ok (v_ds v) ->
  stack_has (t_s (cur v)) (u :: x2 :: x1 :: rest) -> addr_of x1 a1 -> addr_of x2 a2 ->
  u <= 0 \/ (a1 + u < 2 ^ 64 /\ a2 + u < 2 ^ 64) ->
  safe_access ew (exec_prim fuel ew P_p_move) v.
Proof.
  intros Hd Hs Ha1 Ha2 Hw. destruct (Z_le_gt_dec u 0) as [Hu|Hu].
  - destruct (move_nop fuel ew v x1 x2 u rest Hs Hu) as (v' & Ev & _). left. eauto.
  - destruct Hw as [|[W1 W2]]; [lia|].
    destruct ((start (v_ds v) <? a1) && (a1 + u <=? limit (v_ds v)) && (start (v_ds v) <? a2) && (a2 + u <=? limit (v_ds v))) eqn:Hb.
    + destruct (move_ok fuel ew v x1 x2 u a1 a2 rest Hd Hs Ha1 Ha2) as (v' & Ev & _); try lia. left. eauto.
    + destruct (move_bad fuel ew v x1 x2 u a1 a2 rest Hs Ha1 Ha2) as (v1 & Ev & (_ & F & _) & _); try lia. right. eauto.
Qed.
Lemma fstore_safe fuel ew v xa a x d r f m : ds_ok (v_ds v) -> limit (v_ds v) = 8 * m ->
  stacks_are v (xa :: d) r (x :: f) -> addr_of xa a -> a + 7 < 2 ^ 64 ->
  safe_access ew (exec_prim fuel ew P_fstore) v.
Proof.
  intros Hd Hl Hs Ha Hw.
  assert (HM : least_multiple 8 a (align8 a)) by (apply least_align8).
  destruct (align8_mult a) as [k Hk].
  destruct ((start (v_ds v) <=? align8 a) && (align8 a <? limit (v_ds v))) eqn:Hb.
  - destruct (fstore_ok fuel ew v xa a _ x d r f Hd Hs Ha Hw HM) as (v' & Ev & _); try lia. left. eauto.
  - destruct (f_bad P_fstore fuel ew v xa a _ x d r f ltac:(cbn; auto) Hs Ha Hw HM) as (v1 & Ev & F); try lia. right. eauto.
Qed.
Lemma ffetch_safe fuel ew v xa a d r f m : ds_ok (v_ds v) -> mem_ok (v_ds v) -> limit (v_ds v) = 8 * m ->
  stacks_are v (xa :: d) r f -> addr_of xa a -> a + 7 < 2 ^ 64 -> zlen f < 255 ->
  safe_access ew (exec_prim fuel ew P_ffetch) v.
Proof.
  intros Hd Hmem Hl Hs Ha Hw Hf.
  assert (HM : least_multiple 8 a (align8 a)) by (apply least_align8).
  destruct (align8_mult a) as [k Hk]. destruct (cell_exists (v_ds v) (align8 a) Hmem) as [Hc Hr].
  destruct ((start (v_ds v) <=? align8 a) && (align8 a <? limit (v_ds v))) eqn:Hb.
  - destruct (ffetch_ok fuel ew v xa a _ _ d r f Hs Ha Hw HM ltac:(lia) ltac:(lia) Hc Hr Hf) as (v' & Ev & _). left. eauto.
  - cbn [exec_prim]. right. unfold ffetch. destruct (op_spop _ _ _ _ _ Hs) as (v1 & E1 & Hs1 & F1).
    assert (HD1 : v_ds v1 = v_ds v) by (destruct F1 as (_ & D1 & _); congruence).
    rewrite (bind_Ok _ _ _ _ _ E1), (addr_of_to_u64 _ _ Ha). destruct Ha as [Ha _].
    rewrite (bind_Ok _ _ _ _ _ (lift_eq _ _ v1 (aligned8_ok chk a ltac:(lia) Hw))).
    unfold f_addr_ok. rewrite bind_bind, bind_gets, bind_ret, HD1, Hb. eauto.
Qed.

(** allot outside the data space *)
Lemma allot_out fuel ew v n rest :
  ds_ok (v_ds v) -> stack_has (t_s (cur v)) (n :: rest) -> - 2 ^ 63 <= here (v_ds v) + n < 2 ^ 63 ->
  (here (v_ds v) + n < start (v_ds v) \/ limit (v_ds v) < here (v_ds v) + n) ->
  exists v', exec_prim fuel ew P_allot v = Ok (tt, v') /\ stack_has (t_s (cur v')) rest /\ only_data_stack v v'.
Proof.
  intros Hds Hs Hn Ho. pose proof Hds as (H0 & Hh & Hl). cbn [exec_prim]. unfold allot.
  destruct (pop_then v n rest Hs) as (s1 & Ep & Hs1 & Hh1 & Hl1). rewrite Ep.
  assert (HE : ds_allot chk (v_ds v) n = Ok (v_ds v)).
  { unfold ds_allot. cbv zeta. change (2 ^ 63) with two63 in *. unfold two63 in *.
    rewrite (to_i64_id (here (v_ds v))) by (unfold imin, imax; lia).
    rewrite (proj2 (in_i64_true _)) by (unfold imin, imax; lia).
    unfold set_here. set (p := to_u64 (here (v_ds v) + n)).
    assert (Hp : p = here (v_ds v) + n \/ p = here (v_ds v) + n + two64).
    { unfold p, to_u64, two64. destruct (Z_le_gt_dec 0 (here (v_ds v) + n)).
      - left. apply Z.mod_small. lia.
      - right. rewrite <- (Z.mod_add _ 1) by discriminate. rewrite Z.mod_small; lia. }
    unfold two64 in Hp.
    replace ((start (v_ds v) <=? p) && (p <=? limit (v_ds v))) with false by lia. reflexivity. }
  rewrite (ds_upd_eq (fun d => ds_allot chk d n) _ (set_s s1 v) HE).
  exists (set_s s1 v). split; [destruct v; reflexivity|]. split; [rewrite cur_set_s; exact Hs1|]. apply only_data_set_s; assumption.
Qed.

Lemma all_safe fuel ew v :
  safe_access ew (exec_prim fuel ew P_c_fetch) v /\
  safe_access ew (exec_prim fuel ew P_c_store) v /\
  (ds_ok (v_ds v) -> mem_ok (v_ds v) ->
   forall xa a d r f, stacks_are v (xa :: d) r f -> addr_of xa a ->
   (a + 8 < 2 ^ 64 -> safe_access ew (exec_prim fuel ew P_fetch) v) /\
   (forall x d', d = x :: d' -> a + 8 < 2 ^ 64 -> safe_access ew (exec_prim fuel ew P_store) v) /\
   (forall m, limit (v_ds v) = 8 * m -> a + 7 < 2 ^ 64 -> zlen f < 255 ->
      safe_access ew (exec_prim fuel ew P_ffetch) v) /\
   (forall m x f', limit (v_ds v) = 8 * m -> a + 7 < 2 ^ 64 -> f = x :: f' ->
      safe_access ew (exec_prim fuel ew P_fstore) v)) /\
  (ds_ok (v_ds v) -> forall x1 x2 u a1 a2 rest,
   stack_has (t_s (cur v)) (u :: x2 :: x1 :: rest) -> addr_of x1 a1 -> addr_of x2 a2 ->
   u <= 0 \/ (a1 + u < 2 ^ 64 /\ a2 + u < 2 ^ 64) ->
   safe_access ew (exec_prim fuel ew P_p_move) v).
Proof.
  split; [apply c_fetch_safe|]. split; [apply c_store_safe|]. split.
  - intros Hd Hm xa a d r f Hs Ha. split; [|split; [|split]].
    + intro. eapply fetch_safe; try eassumption. apply Hs.
    + intros x d' -> ?. eapply store_safe; try eassumption. apply Hs.
    + intros. eapply ffetch_safe; eassumption.
    + intros m x f' ? ? ->. eapply fstore_safe; eassumption.
  - intros. eapply move_safe; eassumption.
Qed.

Lemma cell_at_unique d a x y : is_cell x -> is_cell y -> cell_at d a x -> cell_at d a y -> x = y.
Proof.
  intros Hx Hy H1 H2. pose proof (cell_at_inj d a x y H1 H2) as H.
  rewrite <- (to_i64_id x), <- (to_i64_id y) by (unfold is_cell, imin, imax in *; lia).
  rewrite <- (to_i64_mod64 x), <- (to_i64_mod64 y), H. reflexivity.
Qed.

Lemma str_round chk0 d s : ds_ok d -> here d + 8 + zlen s <= limit d ->
  exists d', compile_str d s = Ok (here d, d') /\
    same_memory_but d d' (here d) (8 + zlen s) /\ here d' = here d + 8 + zlen s /\
    get_str chk0 d' (here d) = Ok s.
Proof.
  intros Hd Hl. destruct (compile_str_ok d s Hd Hl) as (d' & H1 & H2 & H3 & H4 & H5 & H6 & H7).
  exists d'. split; [exact H1|]. split; [exact H2|]. split; [exact H3|].
  assert (start d' = start d) by (unfold start; assumption). assert (limit d' = limit d) by (unfold limit, start; congruence).
  destruct Hd as (A & B & C). pose proof (zlen_nonneg s).
  apply get_str_ok; try lia; try assumption. apply in_ds_true. lia.
Qed.

Lemma aligned_least chk0 k p : 0 <= k < 64 -> 0 <= p -> p + 2 ^ k - 1 < 2 ^ 64 ->
  exists a, aligned_to chk0 (2 ^ k) p = Ok a /\ least_multiple (2 ^ k) p a.
Proof.
  intros. eexists. split; [apply aligned_ok; assumption|]. apply least_multiple_ok. apply Z.pow_pos_nonneg; lia.
Qed.
Lemma aligned_word_least p fuel ew v x a rest :
  In p [P_aligned; P_faligned] -> stack_has (t_s (cur v)) (x :: rest) -> addr_of x a -> a + 7 < 2 ^ 64 ->
  exists v' m r, exec_prim fuel ew p v = Ok (tt, v') /\ stack_has (t_s (cur v')) (r :: rest) /\
    least_multiple 8 a m /\ wraps_to m r /\ only_data_stack v v'.
Proof.
  intros Hp Hs Ha Hl. destruct (aligned_word_ok p fuel ew v x a rest Hp Hs Ha Hl) as (v' & r & H1 & H2 & H3 & H4).
  exists v', (align8 a), r. repeat (split; [assumption|]). split; [apply least_align8|]. auto.
Qed.
Lemma align_word_least p fuel ew v m :
  In p [P_align; P_falign] -> ds_ok (v_ds v) -> least_multiple 8 (here (v_ds v)) m -> m <= limit (v_ds v) ->
  exists d', exec_prim fuel ew p v = Ok (tt, set_v_ds d' v) /\ here d' = m /\
    same_memory_but (v_ds v) d' (here (v_ds v)) 0.
Proof. intros Hp Hd Hm Hl. apply least8 in Hm. subst m. apply align_word_ok; assumption. Qed.
End W.
