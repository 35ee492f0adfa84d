(** Every primitive changes the VM only by elementary updates ([lstep]) and by
    what the words it executes in turn do.  From this, invariants of all
    executions follow. *)
From Coq Require Import ZArith List Bool Lia ZifyBool ZifyNat.
From Verif Require Import Base Stack Mem Parser Flt State CoreM IoM FloatM FileM Exec.
From Verif Require Import LBase LStack Spec Spec13 LState LMem LMon.
Import ListNotations.
Open Scope Z_scope.

Section Step.
Context {E : Env}.
Implicit Types (v : vm) (t : task).

(** ** Elementary updates *)
Definition len_ok {T} (s : stack T) : Prop := 0 <= len s < 256.
Definition task_ok t : Prop :=
  (len_ok (t_s t) /\ len_ok (t_r t) /\ len_ok (t_c t) /\ len_ok (t_f t)) /\
  List.length (t_lines t) = List.length (t_sources t) /\
  0 <= st_sid (t_state t) <= zlen (t_lines t) /\
  0 <= st_idx (t_state t) < two64.

(** What a word may do to a task: the awake flag and the canaries stay *)
Definition tstep t t' : Prop :=
  t_awake t' = t_awake t /\
  (canary (t_s t') = canary (t_s t) /\ canary (t_r t') = canary (t_r t) /\
   canary (t_c t') = canary (t_c t) /\ canary (t_f t') = canary (t_f t)) /\
  (task_ok t -> task_ok t').

Definition dstep (d d' : dspace) : Prop :=
  ds_inner d' = ds_inner d /\ ds_cap d' = ds_cap d /\ (ds_ok d -> ds_ok d').

Definition defined_action (p : prim) : bool :=
  match p with P_nest | P_p_var | P_p_const | P_unmark | P_p_fconst | P_xdoes => true | _ => false end.

(** What a word may do to a dictionary entry *)
Definition wstep (w w' : word) : Prop :=
  w_link w' = w_link w /\ w_hash w' = w_hash w /\ w_nfa w' = w_nfa w /\ w_dfa w' = w_dfa w /\
  w_cs w' = w_cs w /\
  (w_action w' = w_action w \/ w_action w' = P_xdoes).

Inductive lstep v : vm -> Prop :=
| l_cur t : tstep (cur v) t -> lstep v (put_task (v_cur v) t v)
| l_ds d : dstep (v_ds v) d -> lstep v (set_v_ds d v)
| l_push name w : defined_action (w_action w) = true -> w_cs w <> CS_compile_leave ->
    lstep v (set_v_wl (wl_push name w (v_wl v)) v)
| l_word i w : 0 <= i < wl_len (v_wl v) -> wstep (wl_get (v_wl v) i) w ->
    lstep v (set_v_wl (set_wl_tbl (tset (wl_tbl (v_wl v)) i w) (v_wl v)) v)
| l_temp m : lstep v (set_v_wl (set_wl_temp m (v_wl v)) v)
| l_glob v' : v_cur v' = v_cur v -> v_tasks v' = v_tasks v -> v_handler v' = v_handler v ->
    v_wl v' = v_wl v -> v_ds v' = v_ds v -> v_refs v' = v_refs v -> v_err v' = v_err v -> lstep v v'
| l_err e : known e -> lstep v (set_v_err e v).

Record closed (R : vm -> vm -> Prop) : Prop := {
  c_refl : forall v, R v v;
  c_trans : forall v1 v2 v3, R v1 v2 -> R v2 v3 -> R v1 v3;
  c_step : forall v v', lstep v v' -> R v v'
}.

Definition pres (R : vm -> vm -> Prop) {A} (m : M A) : Prop :=
  forall v a v', m v = Ok (a, v') -> R v v'.

(** ** Data space updates *)
Lemma dstep_refl d : dstep d d. Proof. repeat split; auto; apply H. Qed.
Lemma dstep_trans d1 d2 d3 : dstep d1 d2 -> dstep d2 d3 -> dstep d1 d3.
Proof. intros (A1 & A2 & A3) (B1 & B2 & B3). split; [congruence|]. split; [congruence|]. auto. Qed.
Lemma dstep_set_byte d a x : dstep d (set_byte d a x).
Proof. split; [reflexivity|]. split; [reflexivity|]. auto. Qed.
Lemma dstep_set_cell d a x : dstep d (set_cell_bytes d a x).
Proof. split; [reflexivity|]. split; [reflexivity|]. auto. Qed.
Lemma dstep_set_here d p : dstep d (snd (set_here d p)).
Proof.
  unfold set_here. destruct ((start d <=? p) && (p <=? limit d)) eqn:H; [|apply dstep_refl].
  split; [reflexivity|]. split; [reflexivity|]. unfold ds_ok, start, here, limit in *. cbn. lia.
Qed.
Lemma rbind_inv {A B} (r : res A) (k : A -> res B) x : rbind r k = Ok x -> exists a, r = Ok a /\ k a = Ok x.
Proof. destruct r; cbn; try discriminate. eauto. Qed.
Lemma dstep_put_u8 d x a d' : put_u8 d x a = Ok d' -> dstep d d'.
Proof. unfold put_u8. destruct in_ds; [|discriminate]. intros [= <-]. apply dstep_set_byte. Qed.
Lemma dstep_put_cell d x a d' : put_cell d x a = Ok d' -> dstep d d'.
Proof. unfold put_cell. destruct in_ds; [|discriminate]. intros [= <-]. apply dstep_set_cell. Qed.
Lemma dstep_compile_u8 d x d' : compile_u8 d x = Ok d' -> dstep d d'.
Proof.
  unfold compile_u8. destruct (_ <? _); [|discriminate]. intro H. apply rbind_inv in H.
  destruct H as (d1 & H1 & [= <-]). eapply dstep_trans; [eapply dstep_put_u8; exact H1|]. apply dstep_set_here.
Qed.
Lemma dstep_compile_cell d x d' : compile_cell d x = Ok d' -> dstep d d'.
Proof.
  unfold compile_cell. destruct (_ <=? _); [|discriminate]. intro H. apply rbind_inv in H.
  destruct H as (d1 & H1 & [= <-]). eapply dstep_trans; [eapply dstep_put_cell; exact H1|]. apply dstep_set_here.
Qed.
Lemma dstep_compile_bytes bs : forall d d', compile_bytes d bs = Ok d' -> dstep d d'.
Proof.
  induction bs as [|x bs IH]; intros d d'; cbn; [intros [= <-]; apply dstep_refl|].
  intro H. apply rbind_inv in H. destruct H as (d1 & H1 & H2).
  eapply dstep_trans; [eapply dstep_compile_u8; exact H1|]. apply IH. exact H2.
Qed.
Lemma dstep_compile_str d s n d' : compile_str d s = Ok (n, d') -> dstep d d'.
Proof.
  unfold compile_str. destruct (_ <=? _); [|discriminate]. intro H. apply rbind_inv in H.
  destruct H as (d1 & H1 & H2). apply rbind_inv in H2. destruct H2 as (d2 & H2 & [= <- <-]).
  eapply dstep_trans; [eapply dstep_compile_cell; exact H1|]. eapply dstep_compile_bytes; exact H2.
Qed.
Lemma dstep_allot c d x d' : ds_allot c d x = Ok d' -> dstep d d'.
Proof.
  unfold ds_allot. destruct in_i64; [|destruct c; [discriminate|]]; intros [= <-]; apply dstep_set_here.
Qed.
Lemma dstep_align c d d' : ds_align c d = Ok d' -> dstep d d'.
Proof. unfold ds_align. intro H. apply rbind_inv in H. destruct H as (p & _ & [= <-]). apply dstep_set_here. Qed.
Lemma dstep_write_bytes bs : forall d a, dstep d (write_bytes d a bs).
Proof.
  induction bs as [|x bs IH]; intros d a; cbn; [apply dstep_refl|].
  eapply dstep_trans; [apply dstep_set_byte|apply IH].
Qed.
Lemma dstep_put_cstr c d s p d' : put_cstr c d s p = Ok d' -> dstep d d'.
Proof.
  unfold put_cstr. cbv zeta.
  assert (K : forall e, (if e <=? limit d then (if in_ds d p (Z.min (zlen s) 255 + 1)
    then Ok (write_bytes (set_byte d p (Z.min (zlen s) 255)) (p + 1) (firstn (Z.to_nat (Z.min (zlen s) 255)) s))
    else UB) else Panic PFull) = Ok d' -> dstep d d').
  { intro e. destruct (e <=? limit d); [|discriminate]. destruct in_ds; [|discriminate]. intros [= <-].
    eapply dstep_trans; [apply dstep_set_byte|apply dstep_write_bytes]. }
  destruct in_u64; [apply K|]. destruct c; [discriminate|apply K].
Qed.

(** ** Task updates *)
Lemma tstep_refl t : tstep t t. Proof. repeat split; auto; apply H. Qed.
Lemma tstep_trans t1 t2 t3 : tstep t1 t2 -> tstep t2 t3 -> tstep t1 t3.
Proof.
  intros (A1 & (A2 & A3 & A4 & A5) & A6) (B1 & (B2 & B3 & B4 & B5) & B6).
  split; [congruence|]. split; [repeat split; congruence|]. auto.
Qed.

Section Rel.
Variable R : vm -> vm -> Prop.
Hypothesis HR : closed R.
Notation pres := (pres R).

Lemma p_ret {A} (a : A) : pres (ret a).
Proof. intros v x v' [= <- <-]. apply (c_refl _ HR). Qed.
Lemma p_bind {A B} (m : M A) (k : A -> M B) : pres m -> (forall a, pres (k a)) -> pres (bind m k).
Proof.
  intros H1 H2 v x v' H. apply bind_inv in H. destruct H as (a & v1 & Hm & Hk).
  eapply (c_trans _ HR); [eapply H1; exact Hm|eapply H2; exact Hk].
Qed.
Lemma p_panic {A} p : pres (@panic _ A p). Proof. intros v x v'; discriminate. Qed.
Lemma p_ub {A} : pres (fun _ => @UB (A * vm)). Proof. intros v x v'; discriminate. Qed.
Lemma p_oof {A} : pres (@out_of_fuel _ A). Proof. intros v x v'; discriminate. Qed.
Lemma p_get : pres get. Proof. intros v x v' [= <- <-]. apply (c_refl _ HR). Qed.
Lemma p_gets {A} (f : vm -> A) : pres (gets f). Proof. intros v x v' [= <- <-]. apply (c_refl _ HR). Qed.
Lemma p_lift {A} (r : res A) : pres (lift r).
Proof. intros v x v' H. apply rbind_inv in H. destruct H as (a & _ & [= <- <-]). apply (c_refl _ HR). Qed.
Lemma p_ds_get {A} (f : dspace -> res A) : pres (ds_get f).
Proof. intros v x v' H. apply rbind_inv in H. destruct H as (a & _ & [= <- <-]). apply (c_refl _ HR). Qed.
Lemma p_ds_upd f : (forall d d', f d = Ok d' -> dstep d d') -> pres (ds_upd f).
Proof. intros Hf v x v' H. apply rbind_inv in H. destruct H as (a & Ha & [= <- <-]). apply (c_step _ HR), l_ds, Hf, Ha. Qed.
Lemma p_chk_u64 z : pres (chk_u64 z).
Proof. unfold chk_u64. destruct in_u64; [apply p_ret|]. destruct chk; [apply p_panic|apply p_ret]. Qed.
Lemma p_chk_i64 z : pres (chk_i64 z).
Proof. unfold chk_i64. destruct in_i64; [apply p_ret|]. destruct chk; [apply p_panic|apply p_ret]. Qed.
Lemma p_chk_u8 z : pres (chk_u8 z).
Proof. unfold chk_u8. destruct in_u8; [apply p_ret|]. destruct chk; [apply p_panic|apply p_ret]. Qed.
(** [chk_u64] returns a 64-bit number *)
Lemma p_bind_u64 {B} z (k : Z -> M B) : (forall n, 0 <= n < two64 -> pres (k n)) -> pres (bind (chk_u64 z) k).
Proof.
  intros Hk v x v' H. apply bind_inv in H. destruct H as (n & v1 & Hn & H).
  assert (0 <= n < two64 /\ v1 = v) as [Hr ->].
  { unfold chk_u64 in Hn. destruct in_u64 eqn:I; [injection Hn as <- <-; apply in_u64_true in I; auto|].
    destruct chk; [discriminate|]. injection Hn as <- <-. split; [apply to_u64_range|reflexivity]. }
  eapply Hk; eassumption.
Qed.

Lemma p_upd f : (forall t, tstep t (f t)) -> pres (modify (upd_cur f)).
Proof. intros Hf v x v' [= <- <-]. apply (c_step _ HR), l_cur, Hf. Qed.
Lemma p_mod_cur (g : vm -> task -> task) : (forall v, tstep (cur v) (g v (cur v))) -> pres (modify (fun v => upd_cur (g v) v)).
Proof. intros Hf v x v' [= <- <-]. apply (c_step _ HR), l_cur, Hf. Qed.
Lemma p_glob (f : vm -> vm) : (forall v, lstep v (f v)) -> pres (modify f).
Proof. intros Hf v x v' [= <- <-]. apply (c_step _ HR), Hf. Qed.
Lemma R_cur v t : tstep (cur v) t -> R v (put_task (v_cur v) t v).
Proof. intro H. apply (c_step _ HR), l_cur, H. Qed.
Lemma R_upd v f : tstep (cur v) (f (cur v)) -> R v (upd_cur f v).
Proof. apply R_cur. Qed.
Lemma p_if {A} (c : bool) (m n : M A) : pres m -> pres n -> pres (if c then m else n).
Proof. destruct c; auto. Qed.
Lemma p_mapM {A} (f : A -> M unit) l : (forall x, pres (f x)) -> pres (mapM_ f l).
Proof. intro H. induction l as [|x l IH]; cbn; [apply p_ret|]. apply p_bind; auto. Qed.

End Rel.
End Step.

(** A change to one task that keeps it well formed *)
Ltac tst :=
  split; [reflexivity|]; split; [repeat split; reflexivity|];
  unfold task_ok, len_ok, push, push2, push3, pop, pop2, pop3, sset, set_len, stack_reset, w8add, w8sub;
  cbn; intros; repeat match goal with H : _ /\ _ |- _ => destruct H end;
  repeat (match goal with |- _ /\ _ => split end);
  try assumption; try reflexivity; try lia.
