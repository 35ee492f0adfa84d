(** Symbolic execution of the monad. *)
From Coq Require Import ZArith List Bool Lia ZifyBool ZifyNat FMapPositive.
From Verif Require Import Base Stack Mem Parser State CoreM Exec LBase LStack Spec LState LMem.
Import ListNotations.
Open Scope Z_scope.

Lemma pm_add_add {A} : forall k (x y : A) m, PositiveMap.add k x (PositiveMap.add k y m) = PositiveMap.add k x m.
Proof.
  induction k as [k IH|k IH|]; intros x y [|l o r]; cbn; try (rewrite IH); reflexivity.
Qed.
Lemma tset_tset {A} (m : tmap A) i x y : tset (tset m i x) i y = tset m i y.
Proof. apply pm_add_add. Qed.

Section V.
Context {E : Env}.
Implicit Types (v : vm) (t : task).

Lemma upd_upd f g v : upd_cur f (upd_cur g v) = upd_cur (fun t => f (g t)) v.
Proof.
  unfold upd_cur at 1. rewrite cur_upd. unfold upd_cur, put_task. cbn. rewrite tset_tset. reflexivity.
Qed.

(** Running a bind *)
Lemma bind_Ok {A B} (m : M A) (k : A -> M B) v a v1 : m v = Ok (a, v1) -> bind m k v = k a v1.
Proof. intro H. unfold bind. rewrite H. reflexivity. Qed.
Lemma bind_ret {A B} (a : A) (k : A -> M B) v : bind (ret a) k v = k a v.
Proof. reflexivity. Qed.
Lemma bind_gets {A B} (f : vm -> A) (k : A -> M B) v : bind (gets f) k v = k (f v) v.
Proof. reflexivity. Qed.
Lemma bind_get {B} (k : vm -> M B) v : bind get k v = k v v.
Proof. reflexivity. Qed.
Lemma bind_modify {B} (f : vm -> vm) (k : unit -> M B) v : bind (modify f) k v = k tt (f v).
Proof. reflexivity. Qed.
Lemma bind_bind {A B C} (m : M A) (f : A -> M B) (g : B -> M C) v :
  bind (bind m f) g v = bind m (fun a => bind (f a) g) v.
Proof. unfold bind. destruct (m v) as [[a v1]| | |]; reflexivity. Qed.
Lemma bind_inv {A B} (m : M A) (k : A -> M B) v r :
  bind m k v = Ok r -> exists a v1, m v = Ok (a, v1) /\ k a v1 = Ok r.
Proof. unfold bind. destruct (m v) as [[a v1]| | |]; try discriminate. eauto. Qed.

Lemma chk_u64_ok z v : 0 <= z < two64 -> chk_u64 z v = Ok (z, v).
Proof. intro H. unfold chk_u64. rewrite (proj2 (in_u64_true z) H). reflexivity. Qed.
Lemma chk_i64_ok z v : imin <= z <= imax -> chk_i64 z v = Ok (z, v).
Proof. intro H. unfold chk_i64. rewrite (proj2 (in_i64_true z) H). reflexivity. Qed.
Lemma chk_u8_ok z v : 0 <= z < 256 -> chk_u8 z v = Ok (z, v).
Proof. intro H. unfold chk_u8, in_u8. replace ((0 <=? z) && (z <? 256)) with true by lia. reflexivity. Qed.

Lemma s_pop_eq v x s : pop (t_s (cur v)) = (x, s) -> s_pop v = Ok (x, set_s s v).
Proof. intro H. unfold s_pop, s_stk. rewrite H. reflexivity. Qed.
Lemma s_pop2_eq v x s : pop2 (t_s (cur v)) = (x, s) -> s_pop2 v = Ok (x, set_s s v).
Proof. intro H. unfold s_pop2, s_stk. rewrite H. reflexivity. Qed.
Lemma s_pop3_eq v x s : pop3 (t_s (cur v)) = (x, s) -> s_pop3 v = Ok (x, set_s s v).
Proof. intro H. unfold s_pop3, s_stk. rewrite H. reflexivity. Qed.
Lemma ds_get_eq {A} (f : dspace -> res A) a v : f (v_ds v) = Ok a -> ds_get f v = Ok (a, v).
Proof. intro H. unfold ds_get. rewrite H. reflexivity. Qed.
Lemma ds_upd_eq f d v : f (v_ds v) = Ok d -> ds_upd f v = Ok (tt, set_v_ds d v).
Proof. intro H. unfold ds_upd. rewrite H. reflexivity. Qed.
Lemma lift_eq {A} (r : res A) a v : r = Ok a -> lift r v = Ok (a, v).
Proof. intros ->. reflexivity. Qed.

End V.

(** ** More facts on the stack operations *)
Section S.
Context {T : Type}.
Implicit Types (s : stack T) (l : list T).

Lemma high_trans s s' s'' : len s' <= Z.max (len s) (len s'') ->
  high_slots_kept s s' -> high_slots_kept s' s'' -> high_slots_kept s s''.
Proof.
  intros HL [C1 H1] [C2 H2]. split; [congruence|]. intros i ? ? ?. rewrite H2 by lia. apply H1; lia.
Qed.

Lemma pop2_has s x y l : stack_has s (y :: x :: l) ->
  exists s', pop2 s = ((x, y), s') /\ stack_has s' l /\ high_slots_kept s s' /\ len s' = len s - 2.
Proof.
  intro H. slots_hyp H. pose proof (zlen_nonneg l). unfold pop2. w8.
  exists (set_len s (len s - 2)). split; [|split; [|split]].
  - replace (sget s (len s - 2)) with x by (symmetry; slot_close). rewrite Hx. reflexivity.
  - slots_goal. slot_close.
  - high_goal.
  - reflexivity.
Qed.

Lemma pop3_has s x y z l : stack_has s (z :: y :: x :: l) ->
  exists s', pop3 s = ((x, y, z), s') /\ stack_has s' l /\ high_slots_kept s s' /\ len s' = len s - 3.
Proof.
  intro H. slots_hyp H. pose proof (zlen_nonneg l). unfold pop3. w8.
  exists (set_len s (len s - 3)). split; [|split; [|split]].
  - replace (sget s (len s - 3)) with x by (symmetry; slot_close).
    replace (sget s (len s - 2)) with y by (symmetry; slot_close). rewrite Hx. reflexivity.
  - slots_goal. slot_close.
  - high_goal.
  - reflexivity.
Qed.

Lemma pop1_has s x l : stack_has s (x :: l) ->
  exists s', pop s = (x, s') /\ stack_has s' l /\ high_slots_kept s s' /\ len s' = len s - 1.
Proof.
  intro H. destruct (pop_has s x l H) as (s' & E1 & H1 & H2). exists s'. repeat (split; [assumption|]).
  rewrite (stack_has_len _ _ H1), (stack_has_len _ _ H), zlen_cons. lia.
Qed.

Lemma push1_has s x l : stack_has s l -> zlen l < 255 ->
  stack_has (push s x) (x :: l) /\ high_slots_kept s (push s x) /\ len (push s x) = len s + 1.
Proof.
  intros H Hl. pose proof (stack_has_len _ _ H). pose proof (zlen_nonneg l). pose proof (push_has s l x H Hl) as HP.
  split; [exact HP|]. split; [apply push_high; lia|].
  rewrite (stack_has_len _ _ HP), zlen_cons. lia.
Qed.
Lemma push2_has s x y l : stack_has s l -> zlen l < 254 ->
  stack_has (push2 s x y) (y :: x :: l) /\ high_slots_kept s (push2 s x y) /\ len (push2 s x y) = len s + 2.
Proof.
  intros H Hl. slots_hyp H. pose proof (zlen_nonneg l). unfold push2. cbv zeta. sg. w8. sg.
  split; [slots_goal; sg; try slot_close; reflexivity|]. split; [high_goal|]. lia.
Qed.
Lemma push3_has s x y z l : stack_has s l -> zlen l < 253 ->
  stack_has (push3 s x y z) (z :: y :: x :: l) /\ high_slots_kept s (push3 s x y z) /\ len (push3 s x y z) = len s + 3.
Proof.
  intros H Hl. slots_hyp H. pose proof (zlen_nonneg l). unfold push3. cbv zeta. sg. w8. sg.
  split; [slots_goal; sg; try slot_close; reflexivity|]. split; [high_goal|]. lia.
Qed.
End S.

(** Normalise a state expression *)
Ltac vnorm :=
  unfold set_ip, set_wp, set_awp, set_idx, set_sid, set_compiling, ip in *;
  unfold set_s, set_r, set_c, set_f, set_st, s_stk, r_stk, c_stk, f_stk, st in *;
  repeat first [rewrite upd_upd in * | rewrite cur_upd in *];
  cbn [t_s t_r t_c t_f t_state t_awake t_inbuf t_files t_sources t_lines
       set_t_s set_t_r set_t_c set_t_f set_t_state set_t_awake set_t_inbuf set_t_files set_t_sources set_t_lines
       st_compiling st_ip st_wp st_awp st_idx st_sid
       set_st_compiling set_st_ip set_st_wp set_st_awp set_st_idx set_st_sid] in *.
