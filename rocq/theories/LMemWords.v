(** Memory words. *)
From Coq Require Import ZArith List Bool Lia ZifyBool ZifyNat.
From Verif Require Import Base Stack Mem Parser State CoreM FloatM Exec LBase LStack Spec Spec2 LState LMem LMon.
Import ListNotations.
Open Scope Z_scope.

Section W.
Context {E : Env}.

Lemma addr_of_to_u64 x a : addr_of x a -> to_u64 x = a.
Proof.
  intros [H [k ->]]. unfold to_u64. change (2 ^ 64) with two64 in *. rewrite Z.mod_add by discriminate.
  apply Z.mod_small. exact H.
Qed.
Lemma addr_of_id a : 0 <= a < 2 ^ 64 -> addr_of a a.
Proof. intro. split; [assumption|]. exists 0. lia. Qed.

(** Result of a pop followed by something depending only on the popped value *)
Lemma pop_then v x rest :
  stack_has (t_s (cur v)) (x :: rest) ->
  exists s1, (forall B (k : Z -> M B), bind s_pop k v = k x (set_s s1 v)) /\ stack_has s1 rest /\
             high_slots_kept (t_s (cur v)) s1 /\ len s1 = len (t_s (cur v)) - 1.
Proof.
  intro H. destruct (pop1_has _ _ _ H) as (s1 & E1 & H1 & H2 & H3).
  exists s1. split; [|auto]. intros B k. apply bind_Ok. apply s_pop_eq. exact E1.
Qed.
Lemma pop2_then v x y rest :
  stack_has (t_s (cur v)) (y :: x :: rest) ->
  exists s1, (forall B (k : Z * Z -> M B), bind s_pop2 k v = k (x, y) (set_s s1 v)) /\ stack_has s1 rest /\
             high_slots_kept (t_s (cur v)) s1 /\ len s1 = len (t_s (cur v)) - 2.
Proof.
  intro H. destruct (pop2_has _ _ _ _ H) as (s1 & E1 & H1 & H2 & H3).
  exists s1. split; [|auto]. intros B k. apply bind_Ok. apply s_pop2_eq. exact E1.
Qed.
Lemma pop3_then v x y z rest :
  stack_has (t_s (cur v)) (z :: y :: x :: rest) ->
  exists s1, (forall B (k : Z * Z * Z -> M B), bind s_pop3 k v = k (x, y, z) (set_s s1 v)) /\ stack_has s1 rest /\
             high_slots_kept (t_s (cur v)) s1 /\ len s1 = len (t_s (cur v)) - 3.
Proof.
  intro H. destruct (pop3_has _ _ _ _ _ H) as (s1 & E1 & H1 & H2 & H3).
  exists s1. split; [|auto]. intros B k. apply bind_Ok. apply s_pop3_eq. exact E1.
Qed.

Lemma only_data_memory_set v s d : high_slots_kept (t_s (cur v)) s ->
  ds_inner d = ds_inner (v_ds v) -> ds_cap d = ds_cap (v_ds v) ->
  only_data_memory v (set_v_ds d (set_s s v)).
Proof.
  intros H H1 H2. unfold only_data_memory. rewrite cur_set_v_ds, cur_set_s. cbn [v_ds set_v_ds].
  split; [repeat split; reflexivity|]. split; [intros i Hi Hc Hn; apply task_at_upd; assumption|].
  split; [repeat split; reflexivity|]. repeat (split; [reflexivity || assumption|]). assumption.
Qed.

Lemma cell_ok_true a v : start (v_ds v) < a -> 0 <= a -> a + 8 < two64 -> a + 8 <= limit (v_ds v) -> cell_ok a v = Ok (true, v).
Proof.
  intros H0 H1 H2 H3. unfold cell_ok. rewrite bind_gets. replace (start (v_ds v) <? a) with true by lia.
  rewrite (bind_Ok _ _ _ _ _ (chk_u64_ok (a + 8) v ltac:(lia))). unfold ret. do 2 f_equal. lia.
Qed.
Lemma cell_ok_false a v : 0 <= a -> a + 8 < two64 -> (a <= start (v_ds v) \/ limit (v_ds v) < a + 8) -> cell_ok a v = Ok (false, v).
Proof.
  intros H1 H2 H3. unfold cell_ok. rewrite bind_gets. destruct (Z.ltb_spec (start (v_ds v)) a); [|reflexivity].
  rewrite (bind_Ok _ _ _ _ _ (chk_u64_ok (a + 8) v ltac:(lia))). unfold ret. do 2 f_equal. lia.
Qed.

Lemma limit_two64 d : ds_ok d -> limit d < two63.
Proof. intros (_ & _ & H). exact H. Qed.

Lemma store_ok fuel ew v x xa a rest :
  ds_ok (v_ds v) -> stack_has (t_s (cur v)) (xa :: x :: rest) -> addr_of xa a ->
  start (v_ds v) < a -> a + 8 <= limit (v_ds v) ->
  exists v', exec_prim fuel ew P_store v = Ok (tt, v') /\ stack_has (t_s (cur v')) rest /\
    cell_at (v_ds v') a x /\ same_memory_but (v_ds v) (v_ds v') a 8 /\ here (v_ds v') = here (v_ds v) /\
    only_data_memory v v'.
Proof.
  intros Hds Hs Ha H1 H2. pose proof (limit_two64 _ Hds). pose proof Hds as (H0 & Hh & Hl).
  cbn [exec_prim]. unfold store.
  destruct (pop2_then v x xa rest Hs) as (s1 & Ep &  Hs1 & Hh1 & Hl1). rewrite Ep; clear Ep.
  cbv zeta beta iota. rewrite (addr_of_to_u64 _ _ Ha).
  rewrite (bind_Ok _ _ _ _ _ (cell_ok_true a (set_s s1 v) H1 ltac:(lia) ltac:(unfold two63, two64 in *; lia) H2)).
  destruct (put_cell_ok (v_ds v) x a) as (d' & Hp & Hc & Hm & Hhe & Hi & Hcap & Hlen).
  { apply in_ds_true. lia. }
  rewrite (ds_upd_eq _ d' (set_s s1 v) Hp).
  eexists; split; [reflexivity|]. split; [rewrite cur_set_v_ds, cur_set_s; exact Hs1|].
  split; [exact Hc|]. split; [exact Hm|]. split; [exact Hhe|].
  apply only_data_memory_set; assumption.
Qed.

Lemma fetch_ok fuel ew v x xa a rest :
  ds_ok (v_ds v) -> stack_has (t_s (cur v)) (xa :: rest) -> addr_of xa a ->
  start (v_ds v) < a -> a + 8 <= limit (v_ds v) -> cell_at (v_ds v) a x -> is_cell x ->
  exists v', exec_prim fuel ew P_fetch v = Ok (tt, v') /\ stack_has (t_s (cur v')) (x :: rest) /\
    only_data_stack v v'.
Proof.
  intros Hds Hs Ha H1 H2 Hc Hx. pose proof (limit_two64 _ Hds). pose proof Hds as (H0 & Hh & Hl).
  pose proof (stack_has_bound _ _ Hs) as HB. pose proof (stack_has_len _ _ Hs) as HL. rewrite zlen_cons in HL.
  cbn [exec_prim]. unfold fetch.
  destruct (pop_then v xa rest Hs) as (s1 & Ep &  Hs1 & Hh1 & Hl1). rewrite Ep; clear Ep.
  cbv zeta. rewrite (addr_of_to_u64 _ _ Ha).
  rewrite (bind_Ok _ _ _ _ _ (cell_ok_true a (set_s s1 v) H1 ltac:(lia) ltac:(unfold two63, two64 in *; lia) H2)).
  assert (Hg : get_isize (v_ds v) a = Ok x) by (apply get_isize_ok; [apply in_ds_true; lia|assumption|assumption]).
  rewrite (bind_Ok _ _ _ _ _ (ds_get_eq (fun d => get_isize d a) x (set_s s1 v) Hg)).
  pose proof (zlen_nonneg rest).
  destruct (push1_has s1 x rest Hs1 ltac:(lia)) as (HP & HH & HN).
  unfold s_push, modify. eexists; split; [reflexivity|]. vnorm. split; [exact HP|].
  assert (HE : upd_cur (fun t => set_t_s (push s1 x) (set_t_s s1 t)) v = set_s (push s1 x) v) by reflexivity.
  rewrite HE. apply only_data_set_s. apply (high_trans _ s1); [lia|assumption|assumption].
Qed.

Lemma store_bad fuel ew v x xa a rest :
  stack_has (t_s (cur v)) (xa :: x :: rest) -> addr_of xa a -> a + 8 < 2 ^ 64 ->
  (a <= start (v_ds v) \/ limit (v_ds v) < a + 8) ->
  exists v1, exec_prim fuel ew P_store v = abort_with ew INVALID_MEMORY_ADDRESS v1 /\
    only_data_stack v v1 /\ stack_has (t_s (cur v1)) rest.
Proof.
  intros Hs Ha H1 H2. cbn [exec_prim]. unfold store.
  destruct (pop2_then v x xa rest Hs) as (s1 & Ep &  Hs1 & Hh1 & Hl1). rewrite Ep; clear Ep.
  cbv zeta beta iota. rewrite (addr_of_to_u64 _ _ Ha). destruct Ha as [Ha _].
  rewrite (bind_Ok _ _ _ _ _ (cell_ok_false a (set_s s1 v) ltac:(lia) H1 H2)).
  eexists; split; [reflexivity|]. split; [apply only_data_set_s; assumption|]. rewrite cur_set_s. exact Hs1.
Qed.
Lemma fetch_bad fuel ew v xa a rest :
  stack_has (t_s (cur v)) (xa :: rest) -> addr_of xa a -> a + 8 < 2 ^ 64 ->
  (a <= start (v_ds v) \/ limit (v_ds v) < a + 8) ->
  exists v1, exec_prim fuel ew P_fetch v = abort_with ew INVALID_MEMORY_ADDRESS v1 /\
    only_data_stack v v1 /\ stack_has (t_s (cur v1)) rest.
Proof.
  intros Hs Ha H1 H2. cbn [exec_prim]. unfold fetch.
  destruct (pop_then v xa rest Hs) as (s1 & Ep &  Hs1 & Hh1 & Hl1). rewrite Ep; clear Ep.
  cbv zeta. rewrite (addr_of_to_u64 _ _ Ha). destruct Ha as [Ha _].
  rewrite (bind_Ok _ _ _ _ _ (cell_ok_false a (set_s s1 v) ltac:(lia) H1 H2)).
  eexists; split; [reflexivity|]. split; [apply only_data_set_s; assumption|]. rewrite cur_set_s. exact Hs1.
Qed.

(** Bytes *)
Lemma c_store_ok fuel ew v x xa a rest :
  ds_ok (v_ds v) -> stack_has (t_s (cur v)) (xa :: x :: rest) -> addr_of xa a ->
  start (v_ds v) < a < limit (v_ds v) ->
  exists v', exec_prim fuel ew P_c_store v = Ok (tt, v') /\ stack_has (t_s (cur v')) rest /\
    byte_at (v_ds v') a = x mod 256 /\ same_memory_but (v_ds v) (v_ds v') a 1 /\ here (v_ds v') = here (v_ds v) /\
    only_data_memory v v'.
Proof.
  intros Hds Hs Ha H1. cbn [exec_prim]. unfold c_store.
  destruct (pop2_then v x xa rest Hs) as (s1 & Ep &  Hs1 & Hh1 & Hl1). rewrite Ep; clear Ep.
  cbv zeta beta iota. rewrite (addr_of_to_u64 _ _ Ha). rewrite bind_gets.
  change (v_ds (set_s s1 v)) with (v_ds v).
  replace ((start (v_ds v) <? a) && (a <? limit (v_ds v))) with true by lia.
  rewrite (ds_upd_eq _ (set_byte (v_ds v) a (to_u8 x)) (set_s s1 v)).
  2:{ unfold put_u8. change (v_ds (set_s s1 v)) with (v_ds v).
      rewrite (proj2 (in_ds_true (v_ds v) a 1)) by lia. reflexivity. }
  eexists; split; [reflexivity|]. split; [rewrite cur_set_v_ds, cur_set_s; exact Hs1|].
  cbn [v_ds set_v_ds]. split; [apply byte_set_same|]. split.
  { split; [reflexivity|]. split; [reflexivity|]. intros i Hi Ho. apply byte_set_other; lia. }
  split; [reflexivity|]. apply only_data_memory_set; [assumption|reflexivity|reflexivity].
Qed.

Lemma c_fetch_ok fuel ew v xa a rest :
  stack_has (t_s (cur v)) (xa :: rest) -> addr_of xa a ->
  start (v_ds v) <= a < limit (v_ds v) ->
  exists v', exec_prim fuel ew P_c_fetch v = Ok (tt, v') /\
    stack_has (t_s (cur v')) (byte_at (v_ds v) a :: rest) /\ only_data_stack v v'.
Proof.
  intros Hs Ha H1.
  pose proof (stack_has_bound _ _ Hs) as HB. pose proof (stack_has_len _ _ Hs) as HL. rewrite zlen_cons in HL.
  cbn [exec_prim]. unfold c_fetch.
  destruct (pop_then v xa rest Hs) as (s1 & Ep &  Hs1 & Hh1 & Hl1). rewrite Ep; clear Ep.
  cbv zeta. rewrite (addr_of_to_u64 _ _ Ha). rewrite bind_gets.
  change (v_ds (set_s s1 v)) with (v_ds v).
  replace ((start (v_ds v) <=? a) && (a <? limit (v_ds v))) with true by lia.
  assert (Hg : get_u8 (v_ds v) a = Ok (byte_at (v_ds v) a)).
  { unfold get_u8. rewrite (proj2 (in_ds_true (v_ds v) a 1)) by lia. reflexivity. }
  rewrite (bind_Ok _ _ _ _ _ (ds_get_eq (fun d => get_u8 d a) _ (set_s s1 v) Hg)).
  pose proof (zlen_nonneg rest).
  destruct (push1_has s1 (byte_at (v_ds v) a) rest Hs1 ltac:(lia)) as (HP & HH & HN).
  unfold s_push, modify. eexists; split; [reflexivity|]. vnorm. split; [exact HP|].
  match goal with |- only_data_stack v ?x => change x with (set_s (push s1 (byte_at (v_ds v) a)) v) end.
  apply only_data_set_s. apply (high_trans _ s1); [lia|assumption|assumption].
Qed.

Lemma c_store_bad fuel ew v x xa a rest :
  stack_has (t_s (cur v)) (xa :: x :: rest) -> addr_of xa a ->
  (a <= start (v_ds v) \/ limit (v_ds v) <= a) ->
  exists v1, exec_prim fuel ew P_c_store v = abort_with ew INVALID_MEMORY_ADDRESS v1 /\
    only_data_stack v v1 /\ stack_has (t_s (cur v1)) rest.
Proof.
  intros Hs Ha H1. cbn [exec_prim]. unfold c_store.
  destruct (pop2_then v x xa rest Hs) as (s1 & Ep &  Hs1 & Hh1 & Hl1). rewrite Ep; clear Ep.
  cbv zeta beta iota. rewrite (addr_of_to_u64 _ _ Ha). rewrite bind_gets.
  change (v_ds (set_s s1 v)) with (v_ds v).
  replace ((start (v_ds v) <? a) && (a <? limit (v_ds v))) with false by lia.
  eexists; split; [reflexivity|]. split; [apply only_data_set_s; assumption|]. rewrite cur_set_s. exact Hs1.
Qed.
Lemma c_fetch_bad fuel ew v xa a rest :
  stack_has (t_s (cur v)) (xa :: rest) -> addr_of xa a ->
  (a < start (v_ds v) \/ limit (v_ds v) <= a) ->
  exists v1, exec_prim fuel ew P_c_fetch v = abort_with ew INVALID_MEMORY_ADDRESS v1 /\
    only_data_stack v v1 /\ stack_has (t_s (cur v1)) rest.
Proof.
  intros Hs Ha H1. cbn [exec_prim]. unfold c_fetch.
  destruct (pop_then v xa rest Hs) as (s1 & Ep &  Hs1 & Hh1 & Hl1). rewrite Ep; clear Ep.
  cbv zeta. rewrite (addr_of_to_u64 _ _ Ha). rewrite bind_gets.
  change (v_ds (set_s s1 v)) with (v_ds v).
  replace ((start (v_ds v) <=? a) && (a <? limit (v_ds v))) with false by lia.
  eexists; split; [reflexivity|]. split; [apply only_data_set_s; assumption|]. rewrite cur_set_s. exact Hs1.
Qed.

(** ** MOVE *)
Lemma move_up_ok n : forall a1 a2 v,
  a2 <= a1 -> start (v_ds v) <= a2 -> a1 + Z.of_nat n <= limit (v_ds v) ->
  exists d', move_up n a1 a2 v = Ok (tt, set_v_ds d' v) /\ copied (v_ds v) d' a1 a2 (Z.of_nat n).
Proof.
  induction n as [|n IH]; intros a1 a2 v H1 H2 H3.
  - exists (v_ds v). cbn [move_up]. split; [destruct v; reflexivity|].
    repeat (split; [reflexivity|]). intros i Hi. replace ((a2 <=? i) && (i <? a2 + Z.of_nat 0)) with false by lia. reflexivity.
  - cbn [move_up].
    assert (Hg : get_u8 (v_ds v) a1 = Ok (byte_at (v_ds v) a1)).
    { unfold get_u8. rewrite (proj2 (in_ds_true (v_ds v) a1 1)) by lia. reflexivity. }
    rewrite (bind_Ok _ _ _ _ _ (ds_get_eq (fun d => get_u8 d a1) _ v Hg)).
    set (d1 := set_byte (v_ds v) a2 (byte_at (v_ds v) a1)).
    assert (Hu : put_u8 (v_ds v) (byte_at (v_ds v) a1) a2 = Ok d1).
    { unfold put_u8. rewrite (proj2 (in_ds_true (v_ds v) a2 1)) by lia. reflexivity. }
    rewrite (bind_Ok _ _ _ _ _ (ds_upd_eq (fun d => put_u8 d (byte_at (v_ds v) a1) a2) d1 v Hu)).
    destruct (IH (a1 + 1) (a2 + 1) (set_v_ds d1 v)) as (d' & E1 & HI & HC & HL & HB); cbn [v_ds set_v_ds] in *.
    { lia. } { change (start d1) with (start (v_ds v)). lia. } { change (limit d1) with (limit (v_ds v)). lia. }
    exists d'. split; [exact E1|]. split; [exact HI|]. split; [exact HC|]. split; [exact HL|].
    intros i Hi. change (start d1) with (start (v_ds v)) in HB. rewrite HB by lia.
    destruct ((a2 + 1 <=? i) && (i <? a2 + 1 + Z.of_nat n)) eqn:H4.
    + replace ((a2 <=? i) && (i <? a2 + Z.of_nat (S n))) with true by lia.
      unfold d1. rewrite byte_set_other by lia. f_equal. lia.
    + destruct (Z.eq_dec i a2) as [->|Hne].
      * replace ((a2 <=? a2) && (a2 <? a2 + Z.of_nat (S n))) with true by lia.
        unfold d1. rewrite byte_set_same. f_equal. lia.
      * replace ((a2 <=? i) && (i <? a2 + Z.of_nat (S n))) with false by lia.
        unfold d1. apply byte_set_other; lia.
Qed.

Lemma move_down_ok n : forall a1 a2 v,
  a1 <= a2 -> start (v_ds v) <= a1 -> a2 + Z.of_nat n <= limit (v_ds v) ->
  exists d', move_down n a1 a2 v = Ok (tt, set_v_ds d' v) /\ copied (v_ds v) d' a1 a2 (Z.of_nat n).
Proof.
  induction n as [|n IH]; intros a1 a2 v H1 H2 H3.
  - exists (v_ds v). cbn [move_down]. split; [destruct v; reflexivity|].
    repeat (split; [reflexivity|]). intros i Hi. replace ((a2 <=? i) && (i <? a2 + Z.of_nat 0)) with false by lia. reflexivity.
  - cbn [move_down].
    set (s1 := a1 + Z.of_nat n). set (t1 := a2 + Z.of_nat n).
    assert (Hg : get_u8 (v_ds v) s1 = Ok (byte_at (v_ds v) s1)).
    { unfold get_u8. rewrite (proj2 (in_ds_true (v_ds v) s1 1)) by lia. reflexivity. }
    rewrite (bind_Ok _ _ _ _ _ (ds_get_eq (fun d => get_u8 d s1) _ v Hg)).
    set (d1 := set_byte (v_ds v) t1 (byte_at (v_ds v) s1)).
    assert (Hu : put_u8 (v_ds v) (byte_at (v_ds v) s1) t1 = Ok d1).
    { unfold put_u8. rewrite (proj2 (in_ds_true (v_ds v) t1 1)) by lia. reflexivity. }
    rewrite (bind_Ok _ _ _ _ _ (ds_upd_eq (fun d => put_u8 d (byte_at (v_ds v) s1) t1) d1 v Hu)).
    destruct (IH a1 a2 (set_v_ds d1 v)) as (d' & E1 & HI & HC & HL & HB); cbn [v_ds set_v_ds] in *.
    { lia. } { change (start d1) with (start (v_ds v)). lia. } { change (limit d1) with (limit (v_ds v)). lia. }
    exists d'. split; [exact E1|]. split; [exact HI|]. split; [exact HC|]. split; [exact HL|].
    intros i Hi. change (start d1) with (start (v_ds v)) in HB. rewrite HB by lia.
    destruct ((a2 <=? i) && (i <? a2 + Z.of_nat n)) eqn:H4.
    + replace ((a2 <=? i) && (i <? a2 + Z.of_nat (S n))) with true by lia.
      unfold d1. rewrite byte_set_other by lia. reflexivity.
    + destruct (Z.eq_dec i t1) as [->|Hne].
      * replace ((a2 <=? t1) && (t1 <? a2 + Z.of_nat (S n))) with true by lia.
        unfold d1. rewrite byte_set_same. f_equal. lia.
      * replace ((a2 <=? i) && (i <? a2 + Z.of_nat (S n))) with false by lia.
        unfold d1. apply byte_set_other; lia.
Qed.

Lemma range_ok_true a u v : start (v_ds v) < a -> 0 <= a -> 0 <= u -> a + u < two64 -> a + u <= limit (v_ds v) ->
  range_ok a u v = Ok (Some (a + u), v).
Proof.
  intros H0 H1 H2 H3 H4. unfold range_ok. rewrite bind_gets. replace (start (v_ds v) <? a) with true by lia.
  rewrite (bind_Ok _ _ _ _ _ (chk_u64_ok (a + u) v ltac:(lia))). unfold ret.
  replace (a + u <=? limit (v_ds v)) with true by lia. reflexivity.
Qed.
Lemma range_ok_false a u v : 0 <= a -> 0 <= u -> a + u < two64 -> (a <= start (v_ds v) \/ limit (v_ds v) < a + u) ->
  range_ok a u v = Ok (None, v).
Proof.
  intros H1 H2 H3 H4. unfold range_ok. rewrite bind_gets. destruct (Z.ltb_spec (start (v_ds v)) a); [|reflexivity].
  rewrite (bind_Ok _ _ _ _ _ (chk_u64_ok (a + u) v ltac:(lia))). unfold ret.
  replace (a + u <=? limit (v_ds v)) with false by lia. reflexivity.
Qed.

Lemma move_ok fuel ew v x1 x2 u a1 a2 rest :
  ds_ok (v_ds v) -> stack_has (t_s (cur v)) (u :: x2 :: x1 :: rest) -> addr_of x1 a1 -> addr_of x2 a2 -> 0 < u ->
  start (v_ds v) < a1 -> a1 + u <= limit (v_ds v) -> start (v_ds v) < a2 -> a2 + u <= limit (v_ds v) ->
  exists v', exec_prim fuel ew P_p_move v = Ok (tt, v') /\ stack_has (t_s (cur v')) rest /\
    copied (v_ds v) (v_ds v') a1 a2 u /\ only_data_memory v v'.
Proof.
  intros Hds Hs Ha1 Ha2 Hu H1 H2 H3 H4. pose proof (limit_two64 _ Hds). pose proof Hds as (H0 & Hh & Hl).
  cbn [exec_prim]. unfold p_move.
  destruct (pop3_then v x1 x2 u rest Hs) as (s1 & Ep &  Hs1 & Hh1 & Hl1). rewrite Ep; clear Ep.
  cbv zeta beta iota. replace (0 <? u) with true by lia. cbv iota.
  rewrite (addr_of_to_u64 _ _ Ha1), (addr_of_to_u64 _ _ Ha2).
  rewrite (bind_Ok _ _ _ _ _ (range_ok_true a1 u (set_s s1 v) H1 ltac:(lia) ltac:(lia) ltac:(unfold two63, two64 in *; lia) H2)).
  rewrite (bind_Ok _ _ _ _ _ (range_ok_true a2 u (set_s s1 v) H3 ltac:(lia) ltac:(lia) ltac:(unfold two63, two64 in *; lia) H4)).
  replace (Z.min (a1 + u - a1) (a2 + u - a2)) with u by lia.
  assert (HR : exists d', (if a1 <? a2 then move_down (Z.to_nat u) a1 a2 else move_up (Z.to_nat u) a1 a2) (set_s s1 v)
                 = Ok (tt, set_v_ds d' (set_s s1 v)) /\ copied (v_ds v) d' a1 a2 u).
  { assert (Hn : Z.of_nat (Z.to_nat u) = u) by lia. destruct (Z.ltb_spec a1 a2).
    - assert (HM := move_down_ok (Z.to_nat u) a1 a2 (set_s s1 v)). rewrite Hn in HM. apply HM; change (v_ds (set_s s1 v)) with (v_ds v); lia.
    - assert (HM := move_up_ok (Z.to_nat u) a1 a2 (set_s s1 v)). rewrite Hn in HM. apply HM; change (v_ds (set_s s1 v)) with (v_ds v); lia. }
  destruct HR as (d' & -> & HC). eexists; split; [reflexivity|].
  split; [rewrite cur_set_v_ds, cur_set_s; exact Hs1|]. split; [exact HC|].
  destruct HC as (HI & HK & _). apply only_data_memory_set; assumption.
Qed.

Lemma move_nop fuel ew v x1 x2 u rest :
  stack_has (t_s (cur v)) (u :: x2 :: x1 :: rest) -> u <= 0 ->
  exists v', exec_prim fuel ew P_p_move v = Ok (tt, v') /\ stack_has (t_s (cur v')) rest /\ only_data_stack v v'.
Proof.
  intros Hs Hu. cbn [exec_prim]. unfold p_move.
  destruct (pop3_then v x1 x2 u rest Hs) as (s1 & Ep &  Hs1 & Hh1 & Hl1). rewrite Ep; clear Ep.
  cbv zeta beta iota. replace (0 <? u) with false by lia. eexists; split; [reflexivity|].
  split; [rewrite cur_set_s; exact Hs1|]. apply only_data_set_s; assumption.
Qed.

Lemma move_bad fuel ew v x1 x2 u a1 a2 rest :
  stack_has (t_s (cur v)) (u :: x2 :: x1 :: rest) -> addr_of x1 a1 -> addr_of x2 a2 -> 0 < u ->
  a1 + u < 2 ^ 64 -> a2 + u < 2 ^ 64 ->
  (a1 <= start (v_ds v) \/ limit (v_ds v) < a1 + u \/ a2 <= start (v_ds v) \/ limit (v_ds v) < a2 + u) ->
  exists v1, exec_prim fuel ew P_p_move v = abort_with ew INVALID_MEMORY_ADDRESS v1 /\
    only_data_stack v v1 /\ stack_has (t_s (cur v1)) rest.
Proof.
  intros Hs Ha1 Ha2 Hu H1 H2 H3. cbn [exec_prim]. unfold p_move.
  destruct (pop3_then v x1 x2 u rest Hs) as (s1 & Ep &  Hs1 & Hh1 & Hl1). rewrite Ep; clear Ep.
  cbv zeta beta iota. replace (0 <? u) with true by lia. cbv iota.
  rewrite (addr_of_to_u64 _ _ Ha1), (addr_of_to_u64 _ _ Ha2). destruct Ha1 as [Ha1 _], Ha2 as [Ha2 _].
  assert (Hend : forall v0, exists v1, v0 = set_s s1 v -> abort_with ew INVALID_MEMORY_ADDRESS v0 = abort_with ew INVALID_MEMORY_ADDRESS v1 /\
    only_data_stack v v1 /\ stack_has (t_s (cur v1)) rest).
  { intro v0. exists v0. intros ->. split; [reflexivity|]. split; [apply only_data_set_s; assumption|]. rewrite cur_set_s. exact Hs1. }
  destruct (Z_le_gt_dec a1 (start (v_ds v))) as [HA|HA];
  [|destruct (Z_le_gt_dec (a1 + u) (limit (v_ds v))) as [HB|HB]].
  - rewrite (bind_Ok _ _ _ _ _ (range_ok_false a1 u (set_s s1 v) ltac:(lia) ltac:(lia) H1 (or_introl HA))).
    exists (set_s s1 v). split; [reflexivity|]. split; [apply only_data_set_s; assumption|]. rewrite cur_set_s. exact Hs1.
  - rewrite (bind_Ok _ _ _ _ _ (range_ok_true a1 u (set_s s1 v) ltac:(cbn; lia) ltac:(lia) ltac:(lia) H1 HB)).
    rewrite (bind_Ok _ _ _ _ _ (range_ok_false a2 u (set_s s1 v) ltac:(lia) ltac:(lia) H2 ltac:(change (v_ds (set_s s1 v)) with (v_ds v); lia))).
    exists (set_s s1 v). split; [reflexivity|]. split; [apply only_data_set_s; assumption|]. rewrite cur_set_s. exact Hs1.
  - rewrite (bind_Ok _ _ _ _ _ (range_ok_false a1 u (set_s s1 v) ltac:(lia) ltac:(lia) H1 ltac:(change (v_ds (set_s s1 v)) with (v_ds v); lia))).
    exists (set_s s1 v). split; [reflexivity|]. split; [apply only_data_set_s; assumption|]. rewrite cur_set_s. exact Hs1.
Qed.

(** ** Allocation words *)
Lemma comma_ok p fuel ew v x rest : In p [P_comma; P_compile_comma] ->
  ds_ok (v_ds v) -> stack_has (t_s (cur v)) (x :: rest) -> here (v_ds v) + 8 <= limit (v_ds v) ->
  exists v', exec_prim fuel ew p v = Ok (tt, v') /\ stack_has (t_s (cur v')) rest /\
    cell_at (v_ds v') (here (v_ds v)) x /\ same_memory_but (v_ds v) (v_ds v') (here (v_ds v)) 8 /\
    here (v_ds v') = here (v_ds v) + 8 /\ only_data_memory v v'.
Proof.
  intros Hp Hds Hs Hl.
  assert (HE : exec_prim fuel ew p v = comma v) by (destruct Hp as [<-|[<-|[]]]; reflexivity).
  rewrite HE. unfold comma.
  destruct (pop_then v x rest Hs) as (s1 & Ep &  Hs1 & Hh1 & Hl1). rewrite Ep; clear Ep.
  destruct (compile_cell_ok (v_ds v) x Hds Hl) as (d' & Ec & Hc & Hm & Hh & Hi & Hk).
  rewrite (ds_upd_eq (fun d => compile_cell d x) d' (set_s s1 v) Ec).
  eexists; split; [reflexivity|]. split; [rewrite cur_set_v_ds, cur_set_s; exact Hs1|].
  split; [exact Hc|]. split; [exact Hm|]. split; [exact Hh|]. apply only_data_memory_set; assumption.
Qed.

Lemma allot_ok fuel ew v n rest :
  ds_ok (v_ds v) -> stack_has (t_s (cur v)) (n :: rest) ->
  start (v_ds v) <= here (v_ds v) + n <= limit (v_ds v) ->
  exists v', exec_prim fuel ew P_allot v = Ok (tt, v') /\ stack_has (t_s (cur v')) rest /\
    here (v_ds v') = here (v_ds v) + n /\ same_memory_but (v_ds v) (v_ds v') (here (v_ds v)) 0 /\
    only_data_memory v v'.
Proof.
  intros Hds Hs Hn. pose proof Hds as (H0 & Hh & Hl). cbn [exec_prim]. unfold allot.
  destruct (pop_then v n rest Hs) as (s1 & Ep &  Hs1 & Hh1 & Hl1). rewrite Ep; clear Ep.
  assert (HE : ds_allot chk (v_ds v) n = Ok (moved (v_ds v) (here (v_ds v) + n))).
  { unfold ds_allot. cbv zeta. change (2 ^ 63) with two63 in Hl. unfold two63 in Hl.
    rewrite (to_i64_id (here (v_ds v))) by (unfold imin, imax; lia).
    rewrite (proj2 (in_i64_true _)) by (unfold imin, imax; lia).
    rewrite to_u64_id by (unfold two64; lia). rewrite set_here_ok by lia. reflexivity. }
  rewrite (ds_upd_eq (fun d => ds_allot chk d n) _ (set_s s1 v) HE).
  eexists; split; [reflexivity|]. split; [rewrite cur_set_v_ds, cur_set_s; exact Hs1|].
  cbn [v_ds set_v_ds]. split; [apply here_moved|]. split.
  - split; [reflexivity|]. split; [reflexivity|]. reflexivity.
  - apply only_data_memory_set; [assumption|reflexivity|reflexivity].
Qed.

Lemma aligned_word_ok p fuel ew v x a rest : In p [P_aligned; P_faligned] ->
  stack_has (t_s (cur v)) (x :: rest) -> addr_of x a -> a + 7 < 2 ^ 64 ->
  exists v' r, exec_prim fuel ew p v = Ok (tt, v') /\ stack_has (t_s (cur v')) (r :: rest) /\
    wraps_to (align8 a) r /\ only_data_stack v v'.
Proof.
  intros Hp Hs Ha Hl.
  assert (HE : exec_prim fuel ew p v = aligned v) by (destruct Hp as [<-|[<-|[]]]; reflexivity).
  pose proof (stack_has_bound _ _ Hs) as HB. pose proof (stack_has_len _ _ Hs) as HL. rewrite zlen_cons in HL.
  rewrite HE. unfold aligned.
  destruct (pop_then v x rest Hs) as (s1 & Ep &  Hs1 & Hh1 & Hl1). rewrite Ep; clear Ep.
  rewrite (addr_of_to_u64 _ _ Ha). destruct Ha as [Ha _].
  rewrite (bind_Ok _ _ _ _ _ (lift_eq _ _ (set_s s1 v) (aligned8_ok chk a ltac:(lia) Hl))).
  pose proof (zlen_nonneg rest).
  destruct (push1_has s1 (to_i64 (align8 a)) rest Hs1 ltac:(lia)) as (HP & HH & HN).
  exists (set_s (push s1 (to_i64 (align8 a))) v), (to_i64 (align8 a)).
  split. { unfold s_push, modify. vnorm. reflexivity. }
  split; [rewrite cur_set_s; exact HP|]. split.
  - split; [|apply to_i64_mod]. unfold is_cell. pose proof (to_i64_range (align8 a)). unfold imin, imax in *. lia.
  - apply only_data_set_s. apply (high_trans _ s1); [lia|assumption|assumption].
Qed.

Lemma align_word_ok p fuel ew v : In p [P_align; P_falign] ->
  ds_ok (v_ds v) -> align8 (here (v_ds v)) <= limit (v_ds v) ->
  exists d', exec_prim fuel ew p v = Ok (tt, set_v_ds d' v) /\ here d' = align8 (here (v_ds v)) /\
    same_memory_but (v_ds v) d' (here (v_ds v)) 0.
Proof.
  intros Hp Hds Hl. pose proof Hds as (H0 & Hh & Hlim).
  assert (HE : exec_prim fuel ew p v = align v) by (destruct Hp as [<-|[<-|[]]]; reflexivity).
  rewrite HE. unfold align. pose proof (align8_range (here (v_ds v))).
  assert (HA : ds_align chk (v_ds v) = Ok (moved (v_ds v) (align8 (here (v_ds v))))).
  { unfold ds_align. change (2 ^ 63) with two63 in Hlim. rewrite aligned8_ok by (unfold two64, two63 in *; lia).
    cbn [rbind]. rewrite set_here_ok by lia. reflexivity. }
  rewrite (ds_upd_eq _ _ _ HA). eexists; split; [reflexivity|]. split; [apply here_moved|].
  split; [reflexivity|]. split; reflexivity.
Qed.

Lemma here_word_ok fuel ew v rest :
  ds_ok (v_ds v) -> stack_has (t_s (cur v)) rest -> zlen rest < 255 ->
  exists v', exec_prim fuel ew P_here v = Ok (tt, v') /\ stack_has (t_s (cur v')) (here (v_ds v) :: rest) /\
    only_data_stack v v'.
Proof.
  intros (H0 & Hh & Hl) Hs Hn. cbn [exec_prim]. unfold p_here. rewrite bind_gets.
  change (2 ^ 63) with two63 in Hl. unfold two63 in Hl.
  rewrite to_i64_id by (unfold imin, imax; lia).
  destruct (push1_has _ (here (v_ds v)) rest Hs ltac:(lia)) as (HP & HH & HN).
  eexists; split; [reflexivity|]. vnorm. split; [exact HP|].
  apply only_data_set_s. assumption.
Qed.

End W.
