(** Plain words neither crash nor touch the dictionary, the memory, the return stack or the input (C40). *)
From Coq Require Import ZArith List Bool Lia ZifyBool ZifyNat.
From Verif Require Import Base Stack Mem Parser Flt State CoreM IoM FloatM FileM Exec.
From Verif Require Import LBase LStack Spec Spec4 Spec5 Spec10 Spec11 Spec23 LState LMem LMon.
Import ListNotations.
Open Scope Z_scope.
Open Scope m_scope.

Section T.
Context {E : Env}.
Implicit Types (v u : vm).

(** the parts of the state that stay *)
Definition inv v u : Prop :=
  v_cur u = v_cur v /\ v_ds u = v_ds v /\ v_wl u = v_wl v /\ v_refs u = v_refs v /\ v_handler u = v_handler v /\ v_tkn u = v_tkn v /\
  t_r (cur u) = t_r (cur v) /\ t_inbuf (cur u) = t_inbuf (cur v) /\ t_lines (cur u) = t_lines (cur v) /\
  st_sid (st u) = st_sid (st v) /\ st_idx (st u) = st_idx (st v) /\ st_compiling (st u) = false /\
  (ip u = ip v \/ ip u = 0).
Definition good v : Prop := ds_ok (v_ds v) /\ word_is v (v_handler v) P_noop /\ st_compiling (st v) = false.

Definition tame {A} (m : M A) : Prop := forall v u, good v -> inv v u ->
  match m u with Ok (_, u') => inv v u' | OutOfFuel => True | _ => False end.

Lemma inv_refl v : st_compiling (st v) = false -> inv v v.
Proof. intro H. unfold inv. repeat split; auto. Qed.

Lemma tame_ret {A} (a : A) : tame (ret a). Proof. intros v u _ H. exact H. Qed.
Lemma tame_gets {A} (f : vm -> A) : tame (gets f). Proof. intros v u _ H. exact H. Qed.
Lemma tame_get : tame get. Proof. intros v u _ H. exact H. Qed.
Lemma tame_oof {A} : tame (@out_of_fuel E A). Proof. intros v u _ H. exact I. Qed.
Lemma tame_bind {A B} (m : M A) (k : A -> M B) : tame m -> (forall a, tame (k a)) -> tame (bind m k).
Proof.
  intros H K v u G I. unfold bind. specialize (H v u G I). destruct (m u) as [(a, u1)| | |]; try exact H. apply K; assumption.
Qed.

Lemma inv_s v u s : inv v u -> inv v (set_s s u).
Proof. intro H. unfold inv, ip, st in *. rewrite cur_set_s. exact H. Qed.
Lemma inv_f v u s : inv v u -> inv v (set_f s u).
Proof. intro H. unfold inv, ip, st in *. rewrite cur_set_f. exact H. Qed.
Lemma inv_c v u s : inv v u -> inv v (set_c s u).
Proof. intro H. unfold inv, ip, st in *. rewrite cur_set_c. exact H. Qed.
Lemma inv_err v u x : inv v u -> inv v (set_v_err x u). Proof. exact (fun H => H). Qed.
Lemma inv_out v u x : inv v u -> inv v (set_v_out x u). Proof. exact (fun H => H). Qed.
Lemma inv_os v u x : inv v u -> inv v (set_v_os x u). Proof. exact (fun H => H). Qed.
Lemma inv_stdout v u x : inv v u -> inv v (set_v_stdout x u). Proof. exact (fun H => H). Qed.
Lemma inv_stderr v u x : inv v u -> inv v (set_v_stderr x u). Proof. exact (fun H => H). Qed.
Lemma inv_res v u x : inv v u -> inv v (set_v_res x u). Proof. exact (fun H => H). Qed.
Lemma inv_fwd v u x : inv v u -> inv v (set_v_fwd x u). Proof. exact (fun H => H). Qed.
Lemma inv_wp v u x : inv v u -> inv v (set_wp x u).
Proof. intro H. unfold inv, ip, st, set_wp in *. rewrite cur_set_st. exact H. Qed.
Lemma inv_awp v u x : inv v u -> inv v (set_awp x u).
Proof. intro H. unfold inv, ip, st, set_awp in *. rewrite cur_set_st. exact H. Qed.
Lemma inv_files v u x : inv v u -> inv v (set_files x u).
Proof. intro H. unfold inv, ip, st, set_files in *. rewrite cur_upd. exact H. Qed.
Lemma inv_ip0 v u : inv v u -> inv v (set_ip 0 u).
Proof.
  intro H. unfold inv, ip, st, set_ip in *. rewrite cur_set_st. destruct H as (A1 & A2 & A3 & A4 & A5 & A6 & A7 & A8 & A9 & B1 & B2 & B3 & B4).
  repeat split; auto.
Qed.
Lemma inv_interp v u : inv v u -> inv v (set_compiling false u).
Proof.
  intro H. unfold inv, ip, st, set_compiling in *. rewrite cur_set_st. destruct H as (A1 & A2 & A3 & A4 & A5 & A6 & A7 & A8 & A9 & B1 & B2 & B3 & B4).
  repeat split; auto.
Qed.

Ltac iv := lazymatch goal with
  | H : inv ?v ?u |- inv ?v ?u => exact H
  | |- inv _ (set_s _ _) => apply inv_s; iv
  | |- inv _ (set_f _ _) => apply inv_f; iv
  | |- inv _ (set_c _ _) => apply inv_c; iv
  | |- inv _ (set_v_err _ _) => apply inv_err; iv
  | |- inv _ (set_v_out _ _) => apply inv_out; iv
  | |- inv _ (set_v_os _ _) => apply inv_os; iv
  | |- inv _ (set_v_stdout _ _) => apply inv_stdout; iv
  | |- inv _ (set_v_stderr _ _) => apply inv_stderr; iv
  | |- inv _ (set_v_res _ _) => apply inv_res; iv
  | |- inv _ (set_v_fwd _ _) => apply inv_fwd; iv
  | |- inv _ (set_wp _ _) => apply inv_wp; iv
  | |- inv _ (set_awp _ _) => apply inv_awp; iv
  | |- inv _ (set_files _ _) => apply inv_files; iv
  | |- inv _ (set_ip 0 _) => apply inv_ip0; iv
  | |- inv _ (set_compiling false _) => apply inv_interp; iv
  | |- inv _ (let (_, _) := ?p in _) => destruct p; iv
  | |- inv _ (match ?c with _ => _ end) => destruct c; iv
  end.
Lemma tame_modify f : (forall v u, inv v u -> inv v (f u)) -> tame (modify f).
Proof. intros H v u _ I. exact (H v u I). Qed.
Lemma tame_s_pop : tame s_pop. Proof. intros v u _ H. unfold s_pop. destruct (pop (s_stk u)). iv. Qed.
Lemma tame_s_pop2 : tame s_pop2. Proof. intros v u _ H. unfold s_pop2. destruct (pop2 (s_stk u)). iv. Qed.
Lemma tame_s_pop3 : tame s_pop3. Proof. intros v u _ H. unfold s_pop3. destruct (pop3 (s_stk u)). iv. Qed.
Lemma tame_f_pop : tame f_pop. Proof. intros v u _ H. unfold f_pop. destruct (pop (f_stk u)). iv. Qed.
Lemma tame_f_pop2 : tame f_pop2. Proof. intros v u _ H. unfold f_pop2. destruct (pop2 (f_stk u)). iv. Qed.
Lemma tame_f_pop3 : tame f_pop3. Proof. intros v u _ H. unfold f_pop3. destruct (pop3 (f_stk u)). iv. Qed.
Lemma tame_os_call {A} (f : os -> os * A) : tame (os_call f).
Proof. intros v u _ H. unfold os_call. destruct (f (v_os u)). iv. Qed.

Definition noop_handler (ew : Z -> M unit) : Prop := forall v u, good v -> inv v u ->
  match ew (v_handler u) u with Ok (_, u') => inv v u' | OutOfFuel => True | _ => False end.
Lemma execute_handler f : noop_handler (execute_word f).
Proof.
  intros v u (G1 & (GR & GA) & G2) H. destruct f as [|f]; [exact I|]. cbn [execute_word]. unfold bind at 1, modify.
  assert (H1 := inv_wp v u (v_handler u) H). pose proof H1 as (_ & _ & EW & _ & EH & _). pose proof H as (_ & _ & EW' & _ & EH' & _). rewrite bind_gets, EW, EH'.
  destruct (v_handler v <? wl_len (v_wl v)) eqn:L; [|lia]. unfold bind at 1, word_at. rewrite EH' in EW. rewrite EW. rewrite L.
  destruct (0 <=? v_handler v) eqn:L0; [|lia]. cbn [andb]. rewrite GA. cbn [exec_prim]. rewrite EH' in H1. exact H1.
Qed.

Section W.
Variable ew : Z -> M unit.
Hypothesis He : noop_handler ew.
Variable fuel : nat.

Lemma tame_abort e : tame (abort_with ew e).
Proof.
  intros v u G H. unfold abort_with, clear_stacks, set_error. unfold bind, modify, gets.
  set (w := set_awp _ _). assert (Hw : inv v w) by (unfold w; iv).
  exact (He v w G Hw).
Qed.
Lemma tame_c_fetch : tame (c_fetch ew).
Proof.
  unfold c_fetch. apply tame_bind; [apply tame_s_pop|intro x]. cbv zeta. intros v u G H. rewrite bind_gets.
  destruct ((start (v_ds u) <=? to_u64 x) && (to_u64 x <? limit (v_ds u))) eqn:L; [|exact (tame_abort _ v u G H)].
  unfold bind, ds_get, get_u8. destruct (in_ds (v_ds u) (to_u64 x) 1) eqn:L1.
  - cbn [rbind]. unfold s_push, modify. iv.
  - unfold in_ds in L1. exfalso. lia.
Qed.

Ltac tm :=
  cbv beta zeta;
  lazymatch goal with
  | |- tame (bind _ _) => apply tame_bind; [tm | intro; tm]
  | |- tame (ret _) => apply tame_ret
  | |- tame (gets _) => apply tame_gets
  | |- tame get => apply tame_get
  | |- tame (modify _) => apply tame_modify; intros; cbv beta zeta; iv
  | |- tame s_pop => apply tame_s_pop
  | |- tame s_pop2 => apply tame_s_pop2
  | |- tame s_pop3 => apply tame_s_pop3
  | |- tame f_pop => apply tame_f_pop
  | |- tame f_pop2 => apply tame_f_pop2
  | |- tame f_pop3 => apply tame_f_pop3
  | |- tame (os_call _) => apply tame_os_call
  | |- tame (abort_with _ _) => apply tame_abort
  | |- tame (c_fetch _) => apply tame_c_fetch
  | |- tame (match ?c with _ => _ end) => destruct c; tm
  | |- tame (fun _ => _) => fail 1 "abstraction"
  | |- tame ?m => let h := head_of m in unfold h; tm
  end
with head_of m := lazymatch m with ?f _ => head_of f | _ => m end.

Lemma tame_plain p : In p plain_words -> tame (exec_prim fuel ew p).
Proof.
  intro H. repeat (destruct H as [<-|H]; [cbn [exec_prim]; tm|]). destruct H.
Qed.
End W.
End T.
