(** Facts about the VM record, the monad, and frames. *)
From Coq Require Import ZArith List Bool Lia ZifyBool ZifyNat.
From Verif Require Import Base Stack Mem Parser State CoreM Exec LBase LStack Spec.
Import ListNotations.
Open Scope Z_scope.

Section V.
Context {E : Env}.
Implicit Types (v : vm) (t : task).

Lemma cur_put_task i t v : cur (put_task i t v) = if v_cur v =? i then t else cur (put_task i t v).
Proof.
  destruct (Z.eqb_spec (v_cur v) i) as [<-|]; [|reflexivity].
  unfold cur, task_at, put_task. cbn. apply tget_tset_same.
Qed.

Lemma cur_upd f v : cur (upd_cur f v) = f (cur v).
Proof. unfold upd_cur, cur at 1, task_at, put_task. cbn. apply tget_tset_same. Qed.

Lemma task_at_upd f v i : 0 <= i -> 0 <= v_cur v -> i <> v_cur v -> task_at (upd_cur f v) i = task_at v i.
Proof. intros. unfold upd_cur, task_at, put_task. cbn. apply tget_tset_other; auto. Qed.

Lemma cur_set_s s v : cur (set_s s v) = set_t_s s (cur v). Proof. apply cur_upd. Qed.
Lemma cur_set_r s v : cur (set_r s v) = set_t_r s (cur v). Proof. apply cur_upd. Qed.
Lemma cur_set_c s v : cur (set_c s v) = set_t_c s (cur v). Proof. apply cur_upd. Qed.
Lemma cur_set_f s v : cur (set_f s v) = set_t_f s (cur v). Proof. apply cur_upd. Qed.
Lemma cur_set_st s v : cur (set_st s v) = set_t_state s (cur v). Proof. apply cur_upd. Qed.

(** Setters of global fields do not move the current task *)
Lemma cur_set_v_ds d v : cur (set_v_ds d v) = cur v. Proof. reflexivity. Qed.
Lemma cur_set_v_err d v : cur (set_v_err d v) = cur v. Proof. reflexivity. Qed.
Lemma cur_set_v_wl d v : cur (set_v_wl d v) = cur v. Proof. reflexivity. Qed.
Lemma cur_set_v_tkn d v : cur (set_v_tkn d v) = cur v. Proof. reflexivity. Qed.
Lemma cur_set_v_out d v : cur (set_v_out d v) = cur v. Proof. reflexivity. Qed.
Lemma cur_set_v_os d v : cur (set_v_os d v) = cur v. Proof. reflexivity. Qed.

Lemma same_globals_refl v : same_globals v v.
Proof. repeat split; reflexivity. Qed.
Lemma same_globals_upd f v : same_globals v (upd_cur f v).
Proof. repeat split; reflexivity. Qed.
Lemma same_other_refl v : same_other_tasks v v.
Proof. intros i _ _ _; reflexivity. Qed.
Lemma same_other_upd f v : same_other_tasks v (upd_cur f v).
Proof. intros i Hi Hc Hn. apply task_at_upd; assumption. Qed.
Lemma same_rest_refl t : same_task_rest t t.
Proof. repeat split; reflexivity. Qed.

Lemma only_data_set_s s v : high_slots_kept (t_s (cur v)) s -> only_data_stack v (set_s s v).
Proof.
  intro H. unfold only_data_stack. rewrite cur_set_s.
  split; [apply same_globals_upd|]. split; [reflexivity|]. split; [apply same_other_upd|].
  split; [repeat split; reflexivity|]. split; [reflexivity|]. split; [reflexivity|]. exact H.
Qed.

Lemma on_s_effect p f ins (Q : list Z -> Prop) :
  (forall fuel ew, exec_prim fuel ew p = on_s f) ->
  (forall s rest, stack_has s (ins ++ rest) ->
     exists outs, Q outs /\ (zlen (outs ++ rest) <= 255 ->
       stack_has (f s) (outs ++ rest) /\ high_slots_kept s (f s))) ->
  effect p ins Q.
Proof.
  intros Hp Hf fuel ew v rest Hs. destruct (Hf _ _ Hs) as (outs & HQ & H).
  exists outs. split; [exact HQ|]. intro Hl. destruct (H Hl) as [H1 H2].
  exists (set_s (f (t_s (cur v))) v). rewrite Hp. split; [reflexivity|].
  split; [rewrite cur_set_s; exact H1|]. apply only_data_set_s. exact H2.
Qed.

End V.
